(** The effect of the layer and network operations on the content of a network, without pointers.
    Each function follows the order of the program's steps, so that panics agree as well. *)
From Verif.Spec Require Export NetSpec.

(** Choosing the active nodes of a layer. *)
Definition ref_select (E : env) (lv : LayerView) (cur : list Pair) (label : list Z) (sparsity : float64) (g : rng)
    : res (option (list Pair) * Z * rng) :=
  let N := Z.of_nat (length (lv_nodes lv)) in
  let softmax := is_softmax (lv_type lv) in
  if feqb sparsity fone then Ok (Some (select_all N), 0, g)
  else match e_Mode E with
  | LayerMode1 =>
      actives ← retrieve E (lv_hash lv) (lv_tables lv) cur;
      let '(vect, g) := select_mode1 softmax (lv_l lv) label actives g in
      Ok (Some vect, Z.of_nat (length vect), g)
  | LayerMode2 =>
      if softmax then
        '(active, g) ← select_mode2 (e_fuel E) N sparsity label g;
        Ok (Some active, 0, g)
      else Ok (None, 0, g)
  | LayerMode3 =>
      if softmax then
        '(active, in_) ← select_mode3 N sparsity label cur (map (fun v => (v_w v, v_bias v)) (lv_nodes lv));
        Ok (Some active, in_, g)
      else Ok (None, 0, g)
  | LayerMode4 =>
      actives ← retrieve E (lv_hash lv) (lv_tables lv) cur;
      '(active, in_, g) ← select_mode4 N softmax (lv_l lv) (lv_rand lv) label actives g;
      Ok (Some active, in_, g)
  | LayerModeOther => Ok (None, 0, g)
  end.

(** Computing the activation of one active node; the greatest activation so far is kept for a
    softmax layer. *)
Definition ref_act_step (softmax : bool) (cur : list Pair) (i : Z)
    (st : list NodeView * (list Pair * float64)) (p : Pair) : res (list NodeView * (list Pair * float64)) :=
  let '(vs, (next, mx)) := st in
  v ← sget vs (iv_index p);
  '(a, v') ← ref_activate v cur i;
  Ok (<[Z.to_nat (iv_index p) := v']> vs,
      (next ++ [mkPair (iv_index p) a], if softmax && fltb mx a then a else mx)).
(** Replacing the activation of one active node by its exponential and adding it to the constant. *)
Definition ref_soft_step (E : env) (i : Z) (mx : float64)
    (st : list NodeView * list float64 * list Pair) (p : Pair) : res (list NodeView * list float64 * list Pair) :=
  let '(vs, norm, next) := st in
  let r := e_exp E (fsub (iv_value p) mx) in
  v ← sget vs (iv_index p);
  v' ← ref_set_act v i r;
  x ← sget norm i;
  norm' ← sset norm i (fadd x r);
  Ok (<[Z.to_nat (iv_index p) := v']> vs, norm', next ++ [mkPair (iv_index p) r]).

(** QueryActiveNodeAndComputeActivations *)
Definition ref_query (E : env) (lv : LayerView) (anpl : list (list Pair)) (li i : Z) (label : list Z)
    (sparsity : float64) (g : rng) : res (Z * list (list Pair) * LayerView * rng) :=
  cur ← sget anpl li;
  '(sel, in_, g) ← ref_select E lv cur label sparsity g;
  anpl ← match sel with Some a => sset anpl (li + 1) a | None => Ok anpl end;
  next ← sget anpl (li + 1);
  norm ← (if is_softmax (lv_type lv) then sset (lv_norm lv) i fzero else Ok (lv_norm lv));
  '(vs, (next, mx)) ← foldM (ref_act_step (is_softmax (lv_type lv)) cur i) (lv_nodes lv, ([], fzero)) next;
  '(vs, norm, next) ← (if is_softmax (lv_type lv) then foldM (ref_soft_step E i mx) (vs, norm, []) next
                       else Ok (vs, norm, next));
  anpl ← sset anpl (li + 1) next;
  Ok (in_, anpl, lv_set_norm (lv_set_nodes lv vs) norm, g).

(** The forward pass of one input. *)
Definition ref_forward_layer (E : env) (i : Z) (label : list Z) (sparsity : list float64) (offset : Z)
    (st : list (list Pair) * list Z * NetView) (j : Z) : res (list (list Pair) * list Z * NetView) :=
  let '(anpl, ins, nv) := st in
  lv ← sget (nv_layers nv) j;
  sp ← sget sparsity (offset + j);
  '(in_, anpl, lv', g) ← ref_query E lv anpl j i label sp (nv_rng nv);
  Ok (anpl, ins ++ [in_], mkNV (<[Z.to_nat j := lv']> (nv_layers nv)) g (nv_seeds nv)).
Definition ref_forward (E : env) (num : Z) (sparsity : list float64) (nv : NetView) (i : Z) (feats : list Pair)
    (label : list Z) (offset : Z) : res (list (list Pair) * list Z * NetView) :=
  anpl ← make_slice (@nil Pair) (num + 1);
  anpl ← sset anpl 0 feats;
  foldM (ref_forward_layer E i label sparsity offset) (anpl, [], nv) (seqZ 0 (Z.of_nat (length (nv_layers nv)))).

(** The predicted class of one input. *)
Definition ref_argmax (vs : list NodeView) (i : Z) (st : float64 * Z) (ip : Z * Pair) : res (float64 * Z) :=
  let '(maxAct, c) := st in
  let '(k, p) := ip in
  v ← sget vs (iv_index p);
  s ← sget (v_slots v) i;
  Ok (if fltb maxAct (slot_act s) || (k =? 0) then (slot_act s, iv_index p) else (maxAct, c)).
Definition ref_predict_one (E : env) (num : Z) (sparsity : list float64) (nv : NetView) (i : Z) (ex : Example_)
    : res (Z * NetView) :=
  '(anpl, _, nv) ← ref_forward E num sparsity nv i (features ex) [] num;
  out ← sget anpl num;
  lv ← sget (nv_layers nv) (num - 1);
  '(_, c) ← foldM (ref_argmax (lv_nodes lv) i) (fzero, 0) (indexed out);
  Ok (c, nv).
Definition ref_predict (E : env) (num : Z) (sparsity : list float64) (nv : NetView) (exs : list Example_)
    : res (Z * NetView) :=
  _ ← sget (nv_layers nv) (num - 1);
  foldM (fun '(correct, nv) '(i, ex) =>
      '(c, nv) ← ref_predict_one E num sparsity nv i ex;
      Ok (if intSliceContains (labels ex) c then correct + 1 else correct, nv)) (0, nv) (indexed exs).

(** Back-propagation of one active node of layer [j]; [cur] are the active nodes of the layer before. *)
Definition ref_backward_node (E : env) (num : Z) (i : Z) (ex : Example_) (lr : float64) (j : Z) (cur : list Pair)
    (nv : NetView) (p : Pair) : res NetView :=
  lv ← sget (nv_layers nv) j;
  v ← sget (lv_nodes lv) (iv_index p);
  v ← (if j =? num - 1 then
         if negb (is_softmax (lv_type lv)) then Panic (PMsg 5)
         else x ← sget (lv_norm lv) i; ref_softmax v x i (labels ex)
       else Ok v);
  if negb (j =? 0) then
    pv ← sget (nv_layers nv) (j - 1);
    '(v, ps) ← ref_backprop (e_UseAdam E) lr v (lv_nodes pv) cur i;
    Ok (nv_set (nv_set nv (Z.to_nat j) (lv_set_nodes lv (<[Z.to_nat (iv_index p) := v]> (lv_nodes lv))))
          (Z.to_nat (j - 1)) (lv_set_nodes pv ps))
  else
    v ← ref_backprop_first (e_UseAdam E) lr v (features ex) i;
    Ok (nv_set nv (Z.to_nat j) (lv_set_nodes lv (<[Z.to_nat (iv_index p) := v]> (lv_nodes lv)))).
Definition ref_backward_layer (E : env) (num : Z) (i : Z) (ex : Example_) (lr : float64) (anpl : list (list Pair))
    (nv : NetView) (j : Z) : res NetView :=
  _ ← sget (nv_layers nv) j;
  cur ← sget anpl j;
  next ← sget anpl (j + 1);
  foldM (ref_backward_node E num i ex lr j cur) nv next.
(** One training example: forward pass, then back-propagation from the last layer to the first. *)
Definition ref_train_one (E : env) (num : Z) (sparsity : list float64) (lr : float64) (nv : NetView) (ix : Z * Example_)
    : res (list Z * NetView) :=
  let '(i, ex) := ix in
  '(anpl, ins, nv) ← ref_forward E num sparsity nv i (features ex) (labels ex) 0;
  nv ← foldM (ref_backward_layer E num i ex lr anpl) nv (rev (seqZ 0 num));
  Ok (ins, nv).

(** The Adam update of weight [d] and of the bias. *)
Definition ref_adam_weight (lr : float64) (v : NodeView) (d : Z) : res NodeView :=
  t ← sget (v_t v) d;
  mom ← sget (v_mom v) d;
  vel ← sget (v_vel v) d;
  let mom := fadd (fmul beta1 mom) (fmul beta1c t) in
  let vel := fadd (fmul beta2 vel) (fmul (fmul beta2c t) t) in
  w ← add_at (v_w v) d (fdiv (fmul (fmul fone lr) mom) (fadd (fsqrt vel) eps));
  moms ← sset (v_mom v) d mom;
  vels ← sset (v_vel v) d vel;
  ts ← sset (v_t v) d fzero;
  Ok (v_set_t (v_set_vel (v_set_mom (v_set_w v w) moms) vels) ts).
Definition ref_adam_bias (lr : float64) (v : NodeView) : NodeView :=
  let mb := fadd (fmul beta1 (v_momBias v)) (fmul beta1c (v_tBias v)) in
  let vb := fadd (fmul beta2 (v_velBias v)) (fmul (fmul beta2c (v_tBias v)) (v_tBias v)) in
  v_set_biases v (fadd (v_bias v) (fdiv (fmul (fmul fone lr) mb) (fadd (fsqrt vb) eps))) fzero mb vb (v_mirrorBias v).
Definition ref_update_params (adam : bool) (lr : float64) (v : NodeView) : res NodeView :=
  if adam then v ← foldM (ref_adam_weight lr) v (seqZ 0 (Z.of_nat (length (v_t v)))); Ok (ref_adam_bias lr v)
  else Ok (v_set_biases v (v_mirrorBias v) (v_tBias v) (v_momBias v) (v_velBias v) (v_mirrorBias v)).

(** Entering a node with weights [w] into the tables. *)
Definition ref_insert (E : env) (h : hashers) (t : LSH) (w : list float64) (id : Z) : res LSH :=
  hashes ← weight_hashes E h w [];
  indices ← lsh_HashesToIndex (e_Hash E) t hashes;
  '(_, t') ← lsh_Add t indices id;
  Ok t'.
Definition ref_update_node (E : env) (lr : float64) (rehash : bool) (lv : LayerView) (k : Z) : res LayerView :=
  v ← sget (lv_nodes lv) k;
  v ← ref_update_params (e_UseAdam E) lr v;
  t ← (if rehash then ref_insert E (lv_hash lv) (lv_tables lv) (v_w v) k else Ok (lv_tables lv));
  Ok (lv_set_tables (lv_set_nodes lv (<[Z.to_nat k := v]> (lv_nodes lv))) t).
Definition ref_update_layer (E : env) (lr : float64) (sparsity : list float64) (rehash rebuild : bool) (nv : NetView) (j : Z)
    : res NetView :=
  lv ← sget (nv_layers nv) j;
  sp ← sget sparsity j;
  let rehash := rehash && fltb sp fone in
  let rebuild := rebuild && fltb sp fone in
  let lv := if rehash then lv_set_tables lv (lsh_Clear (lv_tables lv)) else lv in
  '(lv, g, s) ← (if rebuild then
      '(h, g) ← make_hashers E (lv_hash lv) (e_mh E (nv_seeds nv)) (lv_k lv) (lv_l lv) (lv_prev lv) (nv_rng nv);
      Ok (lv_set_hash lv h, g, S (nv_seeds nv))
    else Ok (lv, nv_rng nv, nv_seeds nv));
  lv ← foldM (ref_update_node E lr rehash) lv (seqZ 0 (Z.of_nat (length (lv_nodes lv))));
  Ok (mkNV (<[Z.to_nat j := lv]> (nv_layers nv)) g s).

(** Reshuffling the fallback order of layer [j]. *)
Definition ref_reshuffle (nv : NetView) (j : Z) : res NetView :=
  lv ← sget (nv_layers nv) j;
  let N := length (lv_nodes lv) in
  if (1 <? Z.of_nat N) && (Z.of_nat (length (lv_rand lv)) <? Z.of_nat N) then Panic PIndex
  else
    let '(r, g) := fisher_yates (Nat.pred N) (lv_rand lv) (nv_rng nv) in
    Ok (mkNV (<[Z.to_nat j := lv_set_rand lv r]> (nv_layers nv)) g (nv_seeds nv)).

(** ProcessInput *)
Definition ref_train_all (E : env) (num : Z) (sparsity : list float64) (lr : float64) (nv : NetView) (exs : list Example_)
    : res (list (list Z) * NetView) :=
  foldM (fun '(ins, nv) ix => '(x, nv) ← ref_train_one E num sparsity lr nv ix; Ok (ins ++ [x], nv)) ([], nv) (indexed exs).
Definition ref_process (E : env) (num : Z) (sparsity : list float64) (lr0 : float64) (nv : NetView) (exs : list Example_)
    (iter : Z) (rehash rebuild : bool) : res (list (list Z) * NetView) :=
  _ ← make_slice 0 num;
  nv ← (if Z.rem iter 6946 =? 6945 then foldM ref_reshuffle nv (seqZ 1 (num - 1)) else Ok nv);
  let lr := step_lr E lr0 iter in
  '(ins, nv) ← ref_train_all E num sparsity lr nv exs;
  nv ← foldM (ref_update_layer E lr sparsity rehash rebuild) nv (seqZ 0 (Z.of_nat (length (nv_layers nv))));
  Ok (ins, nv).

(** Construction.  The [q]-th normal draw, as scaled by New: standard deviation 0.01, mean 0. *)
Definition norm_draw (norm : nat -> float64) (q : nat) : float64 := fadd (fmul (norm q) (dec 1 100)) fzero.
(** The nodes of a new layer of [N] nodes with [P] inputs each: all weights are drawn first, row by
    row, then the biases; everything else is zero. *)
Definition new_node (adam : bool) (norm : nat -> float64) (pos N P : nat) (ty : NodeType) (batch : nat) (i : nat) : NodeView :=
  let zs := if adam then replicate P fzero else [] in
  NodeSpec.mkView ty (Z.of_nat batch) (Z.of_nat i) (map (norm_draw norm) (seq (pos + i * P) P)) zs zs zs
    (norm_draw norm (pos + N * P + i)) fzero fzero fzero (norm_draw norm (pos + N * P + i))
    (replicate batch (mkSlot fzero fzero fzero)).
Definition new_nodes (adam : bool) (norm : nat -> float64) (pos N P : nat) (ty : NodeType) (batch : nat) : list NodeView :=
  map (new_node adam norm pos N P ty batch) (seq 0 N).
Definition no_hashers : hashers := mkHashers None None None None [].
Definition ref_layer_new (E : env) (norm : nat -> float64) (pos N P : nat) (ty : NodeType) (batch : nat) (k l rangePow : Z)
    (g : rng) (seeds : nat) : res (LayerView * rng) :=
  let '(rand, g) := shuffle (seqZ 0 (Z.of_nat N)) g in
  '(t, g) ← lsh_New k l rangePow g;
  '(h, g) ← make_hashers E no_hashers (e_mh E seeds) k l (Z.of_nat P) g;
  let nodes := new_nodes (e_UseAdam E) norm pos N P ty batch in
  t ← foldM (fun t i => ref_insert E h t (map (norm_draw norm) (seq (pos + i * P) P)) (Z.of_nat i)) t (seq 0 N);
  Ok (mkLV ty nodes rand (if is_softmax ty then replicate batch fzero else []) k l (Z.of_nat P) t h, g).

(** Construction of a network: layer after layer, each layer's inputs being the nodes of the previous one. *)
Definition ref_new_layer (E : env) (norm : nat -> float64) (sizes : list Z) (types : list NodeType) (batch : Z)
    (k l rangePow : list Z) (sparsity : list float64) (st : list LayerView * Z * nat * rng * nat) (i : Z)
    : res (list LayerView * Z * nat * rng * nat) :=
  let '(lvs, prev, pos, g, s) := st in
  size ← sget sizes i; ty ← sget types i; ki ← sget k i; li ← sget l i; rp ← sget rangePow i; _ ← sget sparsity i;
  '(lv, g) ← ref_layer_new E norm pos (Z.to_nat size) (Z.to_nat prev) ty (Z.to_nat batch) ki li rp g s;
  Ok (lvs ++ [lv], size, (pos + Z.to_nat size * Z.to_nat prev + Z.to_nat size)%nat, g, S s).
Definition ref_net_new (E : env) (norm : nat -> float64) (num : Z) (sizes : list Z) (types : list NodeType) (batch inputDim : Z)
    (k l rangePow : list Z) (sparsity : list float64) (pos : nat) (g : rng) (s : nat) : res NetView :=
  _ ← make_slice tt num;
  '(lvs, _, _, g, s) ← foldM (ref_new_layer E norm sizes types batch k l rangePow sparsity) ([], inputDim, pos, g, s) (seqZ 0 num);
  Ok (mkNV lvs g s).
(** Dimensions for which New's size arithmetic does not overflow; minhash reads 30 weights. *)
Definition dims_ok (E : env) (num : Z) (sizes : list Z) (batch inputDim : Z) : Prop :=
  0 <= batch /\ 0 <= inputDim /\
  forall i size prev, (Z.of_nat i < num) -> sizes !! i = Some size -> (inputDim :: sizes) !! i = Some prev ->
    0 <= size /\ size * prev < 2 ^ 63 /\ size * batch < 2 ^ 63 /\ (e_Hash E = DensifiedMinhashFunction -> 30 <= prev).
