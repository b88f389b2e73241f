(** Properties C46-C51 and C53: layers (package layer). *)
From Verif.Spec Require Import LayerSpec.
From Verif.Proofs Require Import LayerMore.
From stdpp Require Import sorting.
Local Open Scope Z_scope.

(** * A concrete layer for the examples: three nodes over four inputs, two input slots, one hash
      per table, made by New with the sparse-random-projection hash. *)
Definition demoE (mode : LayerModeType) : env :=
  mkEnv true false SparseRandomProjectionHashFunction mode (fun x => x) (fun x _ => x) (fun x => x) (fun _ x => x) 100.
Definition demo0 : mem :=
  mkMem [] [] [] [] [] [] [] [] [] [] (mkRng (fun n => Z.of_nat n * 7919) 0)
    (fun n => f_of_Z (Z.of_nat n mod 5 - 2)) 0 0.
Definition demo_new (mode : LayerModeType) (ty : NodeType) (N tables : Z) : M nat :=
  layer_New (demoE mode) 1 N 4 0 ty 2 1 tables 2 fone fs_nil [] fs_nil fs_nil.
Definition demo (mode : LayerModeType) (ty : NodeType) (N tables : Z) : mem :=
  match demo_new mode ty N tables demo0 with Ok (_, m) => m | Panic _ => demo0 end.
Definition no_layer : Layer := mkLayer 0 TypeOther 0 0 None 0 0 0 0 None None None None [].
Definition demo_la (m : mem) : Layer := default no_layer (m_layer m !! 0%nat).
Definition demo_ns (m : mem) : list nat := default [] (m_na m !! l_nodes (demo_la m)).
Definition demo_rn (m : mem) : list Z := default [] (m_ia m !! l_rand (demo_la m)).
Definition demo_t (m : mem) : LSH := default (mkLSH [] 0 0 0 []) (m_lsh m !! l_tables (demo_la m)).
Definition demo_cur : list Pair := [mkPair 0 fone; mkPair 2 (f_of_Z 2)].
Definition half : float64 := fdiv fone (f_of_Z 2).

(** Count [in], active nodes and memory of a query; cowId 1, input slot 1. *)
Definition demo_run (mode : LayerModeType) (m : mem) (label : list Z) (sp : float64) : option (Z * list Z) :=
  match layer_Query (demoE mode) 1 0 [demo_cur; []] 0 1 label sp m with
  | Ok ((in_, anpl, _), _) => Some (in_, active_of anpl 0)
  | Panic _ => None
  end.

(** * C46 Sampling mode activates labels, retrieved nodes and enough random nodes *)
Theorem C46_sampling : forall E cowId lp anpl li inputId label sp m in_ anpl' lp' m' la ns rn t cur retrieved,
  layer_at m lp la ns rn t ->
  e_Mode E = LayerMode4 -> feqb sp fone = false ->
  rn ≡ₚ seqZ 0 (Z.of_nat (length ns)) -> 0 <= l_l la ->
  sget anpl li = Ok cur -> found E (l_hashers la) t cur retrieved ->
  NoDup label ->
  layer_Query E cowId lp anpl li inputId label sp m = Ok ((in_, anpl', lp'), m') ->
  let N := Z.of_nat (length ns) in
  let cand := candidates (is_softmax (l_type la)) label retrieved in
  let act := active_of anpl' li in
  StronglySorted Z.lt act /\ Forall (fun j => 0 <= j < N) act /\ (forall j, j ∈ cand -> j ∈ act) /\
  Z.of_nat (length act) = Z.max (distinct cand) (Z.min 1000 N) /\ in_ = distinct cand /\
  exists start, start = Z.to_nat (rstream (m_rng m) (rpos (m_rng m)) mod N) /\ (start < length rn)%nat /\ forall j, j ∈ act <-> j ∈ cand \/ j ∈ fill cand rn in_ start.
Proof. exact query_mode4_nodup. Qed.
Print Assumptions C46_sampling.

(** The hypotheses hold of the concrete layer with label 1; its table retrieves node 0. *)
Example C46_sampling_ex :
  let m := demo LayerMode4 Softmax 3 3 in
  layer_at m 0 (demo_la m) (demo_ns m) (demo_rn m) (demo_t m) /\ demo_rn m = [2; 1; 0] /\ l_l (demo_la m) = 3 /\
  found (demoE LayerMode4) (l_hashers (demo_la m)) (demo_t m) demo_cur [[0]; [0]; [0]] /\
  feqb half fone = false /\ demo_run LayerMode4 m [1] half = Some (2, [0; 1; 2]).
Proof.
  cbv zeta. split; [constructor; vm_compute; reflexivity|].
  split; [vm_compute; reflexivity|]. split; [vm_compute; reflexivity|].
  split; [apply found_iff; vm_compute; reflexivity|]. split; vm_compute; reflexivity.
Qed.

(** * C47 Duplicate labels do not corrupt the active set *)

(** False of the code.  With duplicates in the label list of a softmax layer the active list is never
    in increasing order (without duplicates it always is): every surplus label leaves an entry for
    node 0 at the end, and one random node fewer is drawn. *)
Theorem C47_duplicate_labels_refuted :
  forall E cowId lp anpl li inputId label sp m in_ anpl' lp' m' la ns rn t cur retrieved,
  layer_at m lp la ns rn t ->
  e_Mode E = LayerMode4 -> feqb sp fone = false ->
  rn ≡ₚ seqZ 0 (Z.of_nat (length ns)) -> 0 <= l_l la ->
  sget anpl li = Ok cur -> found E (l_hashers la) t cur retrieved ->
  is_softmax (l_type la) = true ->
  layer_Query E cowId lp anpl li inputId label sp m = Ok ((in_, anpl', lp'), m') ->
  ~ NoDup label -> ~ StronglySorted Z.lt (active_of anpl' li).
Proof. exact query_mode4_sorted_iff. Qed.
Print Assumptions C47_duplicate_labels_refuted.

Example C47_duplicate_labels_ex :
  let m := demo LayerMode4 Softmax 3 3 in
  demo_run LayerMode4 m [1] half = Some (2, [0; 1; 2]) /\
  demo_run LayerMode4 m [1; 1] half = Some (3, [0; 1; 2; 0]).
Proof. split; vm_compute; reflexivity. Qed.

(** What the active list is, duplicates or not. *)
Theorem C47_active_list_partial :
  forall E cowId lp anpl li inputId label sp m in_ anpl' lp' m' la ns rn t cur retrieved,
  layer_at m lp la ns rn t ->
  e_Mode E = LayerMode4 -> feqb sp fone = false ->
  rn ≡ₚ seqZ 0 (Z.of_nat (length ns)) -> 0 <= l_l la ->
  sget anpl li = Ok cur -> found E (l_hashers la) t cur retrieved ->
  layer_Query E cowId lp anpl li inputId label sp m = Ok ((in_, anpl', lp'), m') ->
  let N := Z.of_nat (length ns) in
  let softmax := is_softmax (l_type la) in
  let d := if softmax then Z.of_nat (length label) - distinct label else 0 in
  let c := distinct (candidates softmax label retrieved) in
  exists sel, active_of anpl' li = sel ++ replicate (Z.to_nat d) 0 /\
    StronglySorted Z.lt sel /\ Forall (fun j => 0 <= j < N) (active_of anpl' li) /\
    (forall j, j ∈ candidates softmax label retrieved -> j ∈ sel) /\
    Z.of_nat (length sel) = Z.max c (Z.min (1000 - d) N) /\ 0 <= d /\ in_ = c + d /\ 0 < N /\
    exists start, start = Z.to_nat (rstream (m_rng m) (rpos (m_rng m)) mod N) /\ (start < length rn)%nat /\
      forall j, j ∈ sel <-> j ∈ candidates softmax label retrieved \/ j ∈ fill (candidates softmax label retrieved) rn in_ start.
Proof. exact query_mode4. Qed.
Print Assumptions C47_active_list_partial.

(** In layers small enough that every node is activated anyway, only the trailing entries differ. *)
Theorem C47_small_layers_partial :
  forall E cowId lp anpl li inputId label sp m in_ anpl' lp' m' la ns rn t cur retrieved,
  layer_at m lp la ns rn t ->
  e_Mode E = LayerMode4 -> feqb sp fone = false ->
  rn ≡ₚ seqZ 0 (Z.of_nat (length ns)) -> 0 <= l_l la ->
  sget anpl li = Ok cur -> found E (l_hashers la) t cur retrieved ->
  Z.of_nat (length ns) + Z.of_nat (length label) <= 1000 ->
  layer_Query E cowId lp anpl li inputId label sp m = Ok ((in_, anpl', lp'), m') ->
  exists d, active_of anpl' li = seqZ 0 (Z.of_nat (length ns)) ++ replicate d 0.
Proof. exact query_mode4_small. Qed.
Print Assumptions C47_small_layers_partial.

(** * C48 Threshold mode always activates the true labels *)
Theorem C48_exact : forall E cowId lp anpl li inputId label sp m in_ anpl' lp' m' la ns rn t cur retrieved,
  layer_at m lp la ns rn t -> e_Mode E = LayerMode1 -> feqb sp fone = false ->
  sget anpl li = Ok cur -> found E (l_hashers la) t cur retrieved ->
  layer_Query E cowId lp anpl li inputId label sp m = Ok ((in_, anpl', lp'), m') ->
  let act := active_of anpl' li in
  NoDup act /\ Forall (fun j => 0 <= j < Z.of_nat (length ns)) act /\
  (forall j, j ∈ act <-> 2 < tally (is_softmax (l_type la)) (l_l la) label retrieved j) /\
  in_ = Z.of_nat (length act).
Proof. exact query_mode1. Qed.
Print Assumptions C48_exact.

(** The labels are active when there are at least three tables ... *)
Theorem C48_labels_partial :
  forall E cowId lp anpl li inputId label sp m in_ anpl' lp' m' la ns rn t cur retrieved j,
  layer_at m lp la ns rn t -> e_Mode E = LayerMode1 -> feqb sp fone = false ->
  sget anpl li = Ok cur -> found E (l_hashers la) t cur retrieved -> is_softmax (l_type la) = true ->
  layer_Query E cowId lp anpl li inputId label sp m = Ok ((in_, anpl', lp'), m') -> j ∈ label ->
  3 <= l_l la -> j ∈ active_of anpl' li.
Proof. exact query_mode1_labels. Qed.
Print Assumptions C48_labels_partial.

(** ... but with one or two tables, which the configuration allows, a label that is not retrieved
    is not active. *)
Theorem C48_labels_refuted :
  forall E cowId lp anpl li inputId label sp m in_ anpl' lp' m' la ns rn t cur retrieved j,
  layer_at m lp la ns rn t -> e_Mode E = LayerMode1 -> feqb sp fone = false ->
  sget anpl li = Ok cur -> found E (l_hashers la) t cur retrieved -> is_softmax (l_type la) = true ->
  layer_Query E cowId lp anpl li inputId label sp m = Ok ((in_, anpl', lp'), m') -> j ∈ label ->
  l_l la <= 2 -> j ∉ concat retrieved -> j ∉ active_of anpl' li.
Proof. exact query_mode1_no_labels. Qed.
Print Assumptions C48_labels_refuted.

Example C48_ex :
  let m3 := demo LayerMode1 Softmax 3 3 in
  let m2 := demo LayerMode1 Softmax 3 2 in
  layer_at m2 0 (demo_la m2) (demo_ns m2) (demo_rn m2) (demo_t m2) /\ l_l (demo_la m2) = 2 /\
  found (demoE LayerMode1) (l_hashers (demo_la m2)) (demo_t m2) demo_cur [[]; [1; 2]] /\
  demo_run LayerMode1 m3 [1] half = Some (2, [0; 1]) /\
  demo_run LayerMode1 m2 [0] half = Some (0, []).
Proof.
  cbv zeta. split; [constructor; vm_compute; reflexivity|].
  split; [vm_compute; reflexivity|]. split; [apply found_iff; vm_compute; reflexivity|]. split; vm_compute; reflexivity.
Qed.

(** * C49 Random mode picks distinct nodes *)
Theorem C49_random : forall E cowId lp anpl li inputId label sp m in_ anpl' lp' m' la ns,
  m_layer m !! lp = Some la -> m_na m !! l_nodes la = Some ns ->
  e_Mode E = LayerMode2 -> feqb sp fone = false -> is_softmax (l_type la) = true -> NoDup label ->
  layer_Query E cowId lp anpl li inputId label sp m = Ok ((in_, anpl', lp'), m') ->
  let act := active_of anpl' li in
  NoDup act /\ Forall (fun j => 0 <= j < Z.of_nat (length ns)) act /\
  Z.of_nat (length act) = target_size ns sp /\ label `prefix_of` act.
Proof. exact query_mode2. Qed.
Print Assumptions C49_random.

Example C49_random_ex :
  let m := demo LayerMode2 Softmax 4 2 in
  m_layer m !! 0%nat = Some (demo_la m) /\ m_na m !! l_nodes (demo_la m) = Some (demo_ns m) /\
  target_size (demo_ns m) half = 2 /\
  option_map snd (demo_run LayerMode2 m [1] half) = Some [1; 3].
Proof. split_and!; vm_compute; reflexivity. Qed.

(** * C50 Exact top-k mode returns *)

(** False of the code: the sorted list of all nodes is copied into a slice of the target size, so
    whenever that is smaller than the layer the call panics. *)
Theorem C50_topk_refuted : forall E cowId lp anpl li inputId label sp m la ns cur r,
  m_layer m !! lp = Some la -> m_na m !! l_nodes la = Some ns ->
  e_Mode E = LayerMode3 -> feqb sp fone = false -> is_softmax (l_type la) = true ->
  sget anpl li = Ok cur -> target_size ns sp < Z.of_nat (length ns) ->
  layer_Query E cowId lp anpl li inputId label sp m <> Ok r.
Proof. exact query_mode3_never. Qed.
Print Assumptions C50_topk_refuted.

Example C50_topk_ex :
  let m := demo LayerMode3 Softmax 4 2 in
  m_layer m !! 0%nat = Some (demo_la m) /\ m_na m !! l_nodes (demo_la m) = Some (demo_ns m) /\
  is_softmax (l_type (demo_la m)) = true /\ target_size (demo_ns m) half = 2 /\ length (demo_ns m) = 4%nat /\
  demo_run LayerMode3 m [1] half = None /\
  option_map snd (demo_run LayerMode3 m [2] (fdiv (f_of_Z 5) (f_of_Z 4))) = Some [2; 3; 1; 0; 0].
Proof. split_and!; vm_compute; reflexivity. Qed.

(** When it does return (sparsity above one): all nodes ranked by key, labels first, followed by
    entries for node 0; ranked means no later key is less, when no pre-activation is NaN. *)
Theorem C50_ranking_partial : forall E cowId lp anpl li inputId label sp m in_ anpl' lp' m' la ns cur,
  m_layer m !! lp = Some la -> m_na m !! l_nodes la = Some ns ->
  e_Mode E = LayerMode3 -> feqb sp fone = false -> is_softmax (l_type la) = true ->
  sget anpl li = Ok cur ->
  layer_Query E cowId lp anpl li inputId label sp m = Ok ((in_, anpl', lp'), m') ->
  exists ps rest,
    active_of anpl' li = map iv_index ps ++ replicate rest 0 /\
    Z.of_nat (length ns) + Z.of_nat rest = target_size ns sp /\
    map iv_index ps ≡ₚ seqZ 0 (Z.of_nat (length ns)) /\
    (forall p, p ∈ ps -> exists n w b, ns !! Z.to_nat (iv_index p) = Some n /\ node_params m n w b /\
       rank_key label cur (iv_index p) w b (iv_value p)) /\
    (Forall (fun p => is_nan (iv_value p) = false) ps ->
       ranked ps).
Proof. exact query_mode3_ranked. Qed.
Print Assumptions C50_ranking_partial.

(** * C51 Full density activates every node once *)
Theorem C51_dense : forall E cowId lp anpl li inputId label sp m in_ anpl' lp' m' la ns,
  m_layer m !! lp = Some la -> m_na m !! l_nodes la = Some ns -> feqb sp fone = true ->
  layer_Query E cowId lp anpl li inputId label sp m = Ok ((in_, anpl', lp'), m') ->
  active_of anpl' li = seqZ 0 (Z.of_nat (length ns)) /\ in_ = 0.
Proof. exact query_dense. Qed.
Print Assumptions C51_dense.

(** Whatever the hash tables are replaced by, the outcome is the same (and they are left alone). *)
Theorem C51_tables_not_read : forall E cowId lp anpl li inputId label sp,
  feqb sp fone = true ->
  forall (f : list LSH -> list LSH) m,
    layer_Query E cowId lp anpl li inputId label sp (upd_lsh f m) =
    with_tables f (layer_Query E cowId lp anpl li inputId label sp m).
Proof. exact blind_query. Qed.
Print Assumptions C51_tables_not_read.

Example C51_dense_ex :
  let m := demo LayerMode4 ReLU 4 2 in
  demo_run LayerMode4 m [1] fone = Some (0, [0; 1; 2; 3]) /\
  demo_run LayerMode4 (upd_lsh (fun _ => []) m) [1] fone = Some (0, [0; 1; 2; 3]) /\
  demo_run LayerMode4 (upd_lsh (fun _ => []) m) [1] half = None.
Proof. split_and!; vm_compute; reflexivity. Qed.

(** * C53 Random node order stays a permutation *)
Theorem C53_random_order :
  forall E cowId N prev layerId ty B k l rangePow sp w b mom vel m lp m',
  layer_New E cowId N prev layerId ty B k l rangePow sp w b mom vel m = Ok (lp, m') ->
  forall n, exists m'', repeatM n (layer_UpdateRandomNodes lp) m' = Ok (tt, m'') /\ in_order m'' lp N.
Proof. exact new_update_in_order. Qed.
Print Assumptions C53_random_order.

Example C53_random_order_ex :
  match demo_new LayerMode4 ReLU 4 2 demo0 with
  | Ok (lp, m) => lp = 0%nat /\
      match repeatM 3 (layer_UpdateRandomNodes lp) m with
      | Ok (_, m') => map (fun m => default [] (m_ia m !! 0%nat)) [m; m'] = [[1; 3; 2; 0]; [3; 2; 1; 0]]
      | Panic _ => False
      end
  | Panic _ => False
  end.
Proof. vm_compute. split; reflexivity. Qed.
