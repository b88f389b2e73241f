(** Which nodes are retrieved for an input. *)
From Verif.Spec Require Export ShapeSpec.
From Verif.Spec Require Export LayerSpec.

(** The bucket [x] of table [a] that an input leads to, and the one the weights of a node lead to. *)
Definition input_bucket (E : env) (lv : LayerView) (cur : list Pair) (a : nat) (x : Z) : Prop :=
  exists codes bs, input_codes E (lv_hash lv) cur codes /\ lsh_HashesToIndex (e_Hash E) (lv_tables lv) codes = Ok bs /\ bs !! a = Some x.
Definition node_bucket (E : env) (lv : LayerView) (v : NodeView) (a : nat) (x : Z) : Prop :=
  exists ix, address E lv (v_w v) ix /\ ix !! a = Some x.
(** [ids] are the nodes of bucket [x] of table [a]; a bucket keeps 128 nodes, those with the greatest ids. *)
Definition bucket_list (E : env) (lv : LayerView) (a : nat) (x : Z) (ids : list Z) : Prop :=
  NoDup ids /\ (length ids <= 128)%nat /\
  (forall k, k ∈ ids -> 0 <= k /\ exists v, lv_nodes lv !! Z.to_nat k = Some v /\ node_bucket E lv v a x) /\
  (forall k v, lv_nodes lv !! k = Some v -> node_bucket E lv v a x ->
     Z.of_nat k ∈ ids \/ length ids = 128%nat /\ Forall (fun j => Z.of_nat k < j) ids).
(** Every input is answered, table by table, with the nodes that share its bucket. *)
Definition answers (E : env) (lv : LayerView) : Prop :=
  forall cur retrieved, found E (lv_hash lv) (lv_tables lv) cur retrieved ->
  forall a, Z.of_nat a < lv_l lv -> exists x ids, input_bucket E lv cur a x /\ retrieved !! a = Some ids /\ bucket_list E lv a x ids.

(** The input lists the vector [w], all entries in order. *)
Definition lists_vector (cur : list Pair) (w : list float64) : Prop :=
  map iv_index cur = seqZ 0 (Z.of_nat (length w)) /\ map iv_value cur = w.
(** What the hash functions need to treat the two alike: sizes below 2^53, and entries above -2^63 for DWTA. *)
Definition twin_conditions (E : env) (k l prev : Z) (w : list float64) : Prop :=
  0 <= k * l < 2^50 /\ 0 < prev < 2^53 /\
  (e_Hash E = DensifiedWtaHashFunction ->
     0 <= int_of_f (e_log2 E (f_of_Z (k * l))) <= 31 /\ Forall (fun x => fltb (f_of_Z (- 2^63)) x = true) w).
(** The layer finds a node by its own weights: given them as input, every table lists the node, unless 128 nodes
    with greater ids are in the bucket. *)
Definition finds_twins (E : env) (k l prev : Z) (lv : LayerView) : Prop :=
  forall i v cur, lv_nodes lv !! i = Some v -> lists_vector cur (v_w v) -> twin_conditions E k l prev (v_w v) ->
  exists retrieved, found E (lv_hash lv) (lv_tables lv) cur retrieved /\
    forall a, Z.of_nat a < lv_l lv -> exists ids, retrieved !! a = Some ids /\
      (Z.of_nat i ∈ ids \/ length ids = 128%nat /\ Forall (fun j => Z.of_nat i < j) ids).
