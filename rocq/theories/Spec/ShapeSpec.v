(** The shape of a network that does not change while it is used. *)
From Verif.Spec Require Export TrainSpec.

(** Node [i] of a layer of type [ty] with [prev] inputs, for batches of [batch] examples: it knows its place, its
    arrays have the right lengths, and no error is pending. *)
Record node_shape (adam : bool) (ty : NodeType) (batch prev i : nat) (v : NodeView) : Prop := mkNodeShape {
  sh_identity : identity v = (ty, Z.of_nat batch, Z.of_nat i);
  sh_w : length (v_w v) = prev;
  sh_adam : length (v_mom v) = (if adam then prev else 0)%nat /\ length (v_vel v) = (if adam then prev else 0)%nat /\
            length (v_t v) = (if adam then prev else 0)%nat;
  sh_slots : length (v_slots v) = batch;
  sh_calm : Forall (fun s => s_delta s = fzero) (v_slots v)
}.
(** Hash tables made by New that have only been filled with ids below [n] and cleared. *)
Definition used_tables (k l rp : Z) (n : nat) (t : LSH) : Prop :=
  exists g t0 g' ops, lsh_New k l rp g = Ok (t0, g') /\ lsh_run t0 ops = Ok t /\
    Forall (fun o => match o with LAdd _ id => 0 <= id < Z.of_nat n | LAddSingle _ _ id => 0 <= id < Z.of_nat n | LClear => True end) ops.
(** The hash function of a layer is one that the constructor of its package makes, with k*l hashes of vectors of
    [prev] values; minhash comes with its map from features to bins. *)
Definition made_hashers (E : env) (k l prev : Z) (h : hashers) : Prop :=
  match e_Hash E with
  | WtaHashFunction => exists g w g', wta_New (wrap64 (k * l)) prev g = Ok (w, g') /\ hs_wta h = Some w
  | DensifiedWtaHashFunction =>
      exists g d g', dwta_New (e_log2 E) (wrap64 (k * l)) prev g = Ok (d, g') /\ hs_dwta h = Some d
  | DensifiedMinhashFunction =>
      exists s g mn g', mn_New (e_log2 E) (e_mh E s) (wrap64 (k * l)) prev g = (mn, g') /\ hs_min h = Some mn /\
        mn_GetMap mn prev = Ok (hs_binIds h)
  | SparseRandomProjectionHashFunction =>
      exists g s g', srp_New prev (wrap64 (k * l)) 32 g = Ok (s, g') /\ hs_srp h = Some s
  | HashOther => False
  end.
(** A layer of [size] nodes with [prev] inputs each. *)
Record layer_shape (E : env) (batch size prev : nat) (ty : NodeType) (k l rp : Z) (lv : LayerView) : Prop := mkLayerShape {
  ss_type : lv_type lv = ty; ss_k : lv_k lv = k; ss_l : lv_l lv = l; ss_prev : lv_prev lv = Z.of_nat prev;
  ss_size : length (lv_nodes lv) = size;
  ss_nodes : forall i v, lv_nodes lv !! i = Some v -> node_shape (e_UseAdam E) ty batch prev i v;
  ss_rand : lv_rand lv ≡ₚ seqZ 0 (Z.of_nat size);
  ss_norm : length (lv_norm lv) = (if is_softmax ty then batch else 0)%nat;
  ss_tables : used_tables k l rp size (lv_tables lv);
  ss_hash : made_hashers E k l (Z.of_nat prev) (lv_hash lv)
}.
(** A network with the given configuration; the inputs of a layer are the nodes of the one before. *)
Definition net_shape (E : env) (num : Z) (sizes : list Z) (types : list NodeType) (batch inputDim : Z) (k l rp : list Z) (nv : NetView) : Prop :=
  Z.of_nat (length (nv_layers nv)) = num /\
  forall j lv, nv_layers nv !! j = Some lv -> exists size prev ty kj lj rj,
    sizes !! j = Some size /\ (inputDim :: sizes) !! j = Some prev /\ types !! j = Some ty /\
    k !! j = Some kj /\ l !! j = Some lj /\ rp !! j = Some rj /\
    layer_shape E (Z.to_nat batch) (Z.to_nat size) (Z.to_nat prev) ty kj lj rj lv.

(** * A training call *)
(** The fallback order of the layers, except the first, may have been permuted; this happens every 6946 calls. *)
Definition reshuffled (iter : Z) (lvs lvs' : list LayerView) : Prop :=
  Forall2 (fun lv lv' => exists r, lv' = lv_set_rand lv r /\ r ≡ₚ lv_rand lv) lvs lvs' /\
  lvs' !! 0%nat = lvs !! 0%nat /\ (Z.rem iter 6946 <> 6945 -> lvs' = lvs).
(** A layer after the update: every node has been updated; the hash functions change only with [rebuild], the
    tables only with [rehash] (and neither for a dense layer). *)
Record layer_updated (E : env) (lr sp : float64) (rehash rebuild : bool) (lv lv' : LayerView) : Prop := mkLayerUpd {
  lu_nodes : Forall2 (updated (e_UseAdam E) lr) (lv_nodes lv) (lv_nodes lv');
  lu_type : lv_type lv' = lv_type lv; lu_rand : lv_rand lv' = lv_rand lv; lu_norm : lv_norm lv' = lv_norm lv;
  lu_k : lv_k lv' = lv_k lv; lu_l : lv_l lv' = lv_l lv; lu_prev : lv_prev lv' = lv_prev lv;
  lu_hash : rebuild && fltb sp fone = false -> lv_hash lv' = lv_hash lv;
  lu_tables : rehash && fltb sp fone = false -> lv_tables lv' = lv_tables lv
}.
(** The effect of ProcessInput on the layers. *)
Definition training_call (E : env) (batch : Z) (sparsity : list float64) (lr0 : float64) (exs : list Example_) (iter : Z)
    (rehash rebuild : bool) (lvs lvs' : list LayerView) : Prop :=
  exists lvs1 lvs2, reshuffled iter lvs lvs1 /\ trains E batch sparsity (learning_rate E lr0 iter) exs lvs1 lvs2 /\
    length lvs' = length lvs2 /\
    forall j lv lv', lvs2 !! j = Some lv -> lvs' !! j = Some lv' -> exists sp, sparsity !! j = Some sp /\
      layer_updated E (learning_rate E lr0 iter) sp rehash rebuild lv lv'.

(** No gradient is left over: with Adam all accumulators are zero, without it the learned bias is in use. *)
Definition settled (adam : bool) (v : NodeView) : Prop :=
  if adam then Forall (eq fzero) (v_t v) /\ v_tBias v = fzero else v_bias v = v_mirrorBias v.

(** * New *)
(** How many normal draws the layers before layer [j] have taken: one for each weight and each bias. *)
Fixpoint draws_before (prev : Z) (sizes : list Z) (j : nat) {struct j} : nat :=
  match j, sizes with
  | S j, size :: sizes => Z.to_nat size * Z.to_nat prev + Z.to_nat size + draws_before size sizes j
  | _, _ => 0
  end%nat.
(** Layer [j] of a new network, [pos] being the number of draws taken before New: its nodes hold the next draws
    as weights and biases and zeros otherwise ([new_nodes]), and the tables list them all. *)
Definition new_layer_spec (E : env) (norm : nat -> float64) (pos : nat) (sizes : list Z) (batch inputDim : Z) (j : nat)
    (size prev : Z) (ty : NodeType) (rj : Z) (lv : LayerView) : Prop :=
  (0 <= rj <= 62 -> findable E lv) /\
  lv_nodes lv = new_nodes (e_UseAdam E) norm (pos + draws_before inputDim sizes j) (Z.to_nat size) (Z.to_nat prev) ty (Z.to_nat batch).
