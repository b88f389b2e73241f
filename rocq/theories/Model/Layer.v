(** Model of layer/layer.go over the memory of Model/Mem.v; a *Layer is an address. *)
From Verif.Model Require Export Node.
From stdpp Require Import gmap fin_maps.
Local Open Scope Z_scope.

(** Constants — layer/layer.go:24-29 *)
Definition srpRatio : Z := 32.
Definition topK : Z := 30.
Definition stdDev : float64 := fdiv fone (f_of_Z 100).
Definition threshold : Z := 2.
Definition mapLen : Z := 325056.

(** The hash-function fields of a Layer (layer/layer.go:41-45). *)
Record hashers := mkHashers {
  hs_wta : option WtaHash; hs_min : option Minhash; hs_srp : option Srp; hs_dwta : option Dwta;
  hs_binIds : list Z
}.
Definition l_hashers (la : Layer) : hashers :=
  mkHashers (l_wta la) (l_min la) (l_srp la) (l_dwta la) (l_binIds la).
Definition l_set_hashers (la : Layer) (h : hashers) : Layer :=
  mkLayer (l_cowId la) (l_type la) (l_nodes la) (l_rand la) (l_norm la) (l_k la) (l_l la) (l_prev la)
    (l_tables la) (hs_wta h) (hs_min h) (hs_srp h) (hs_dwta h) (hs_binIds h).

(** The switch making a new hash function — layer/layer.go:106-126 (New) and 228-248 (UpdateTable),
    identical.  [h] are the current fields, [mh] the hash of a fresh maphash seed.
    PMsg 4 is "Unexpected hash function". *)
Definition make_hashers (E : env) (h : hashers) (mh : Z -> Z) (k l prev : Z) (g : rng) : res (hashers * rng) :=
  match e_Hash E with
  | WtaHashFunction =>
      '(w, g) ← wta_New (wrap64 (k * l)) prev g;
      Ok (mkHashers (Some w) (hs_min h) (hs_srp h) (hs_dwta h) (hs_binIds h), g)
  | DensifiedWtaHashFunction =>
      binIds ← make_slice 0 prev;
      '(d, g) ← dwta_New (e_log2 E) (wrap64 (k * l)) prev g;
      Ok (mkHashers (hs_wta h) (hs_min h) (hs_srp h) (Some d) binIds, g)
  | DensifiedMinhashFunction =>
      let '(mn, g) := mn_New (e_log2 E) mh (wrap64 (k * l)) prev g in
      binIds ← mn_GetMap mn prev;
      Ok (mkHashers (hs_wta h) (Some mn) (hs_srp h) (hs_dwta h) binIds, g)
  | SparseRandomProjectionHashFunction =>
      '(s, g) ← srp_New prev (wrap64 (k * l)) srpRatio g;
      Ok (mkHashers (hs_wta h) (hs_min h) (Some s) (hs_dwta h) (hs_binIds h), g)
  | HashOther => Panic (PMsg 4)
  end.
(** The same on the memory: reads the random source and takes a new maphash seed. *)
Definition new_hashers (E : env) (h : hashers) (k l prev : Z) : M hashers := fun m =>
  match make_hashers E h (e_mh E (m_seeds m)) k l prev (m_rng m) with
  | Ok (h', g) => Ok (h', upd_seeds (S (m_seeds m)) (upd_rng g m))
  | Panic p => Panic p
  end.

(** A call on a nil hasher panics. *)
Definition notnil {A} (o : option A) : res A := match o with Some a => Ok a | None => Panic PNil end.

(** Hashes of a layer input — layer/layer.go:306-323 and 419-436, identical.  Every slice passed
    here is as long as its capacity (xcrepo.go:146, layer.go:296, 355, 361, 384, 501). *)
Definition query_hashes (E : env) (h : hashers) (cur : list Pair) : res (list Z) :=
  match e_Hash E with
  | WtaHashFunction => w ← notnil (hs_wta h); wta_GetHash w cur
  | DensifiedWtaHashFunction => d ← notnil (hs_dwta h); dwta_GetHash d cur
  | DensifiedMinhashFunction => mn ← notnil (hs_min h); mn_GetHashEasy mn (hs_binIds h) cur [] topK
  | SparseRandomProjectionHashFunction => s ← notnil (hs_srp h); srp_GetHashSparse s cur
  | HashOther => Panic (PMsg 4)
  end.

(** Hashes of a weight vector — GetHashForInputProcessing, layer/layer.go:561-580, and
    addToHashTable, 599-615; [spare] are the array elements beyond the slice. *)
Definition weight_hashes (E : env) (h : hashers) (w spare : list float64) : res (list Z) :=
  match e_Hash E with
  | WtaHashFunction => t ← notnil (hs_wta h); wta_GetHashDense t w
  | DensifiedWtaHashFunction => d ← notnil (hs_dwta h); dwta_GetHashEasy d w topK
  | DensifiedMinhashFunction => mn ← notnil (hs_min h); mn_GetHashEasyDense mn (hs_binIds h) w spare topK
  | SparseRandomProjectionHashFunction => s ← notnil (hs_srp h); srp_GetHash s w
  | HashOther => Panic (PMsg 4)
  end.

(** addToHashTable — layer/layer.go:590-619 *)
Definition layer_addToHashTable (E : env) (h : hashers) (tables : nat) (w : fslice) (id : Z) : M unit :=
  ws ← fread w;
  sp ← fspare w;
  hashes ← lift (weight_hashes E h ws sp);
  t ← load_lsh tables;
  indices ← lift (lsh_HashesToIndex (e_Hash E) t hashes);
  '(_, t') ← lift (lsh_Add t indices id);
  store_lsh tables t'.

(** s[lo:hi]; an empty slice is taken to have no capacity (only nil and made slices occur). *)
Definition fslice_sub (s : fslice) (lo hi : Z) : M fslice :=
  cap ← (if fs_len s <=? 0 then mret 0 else a ← load_f (fs_loc s); mret (Z.of_nat (length a) - fs_off s));
  if (0 <=? lo) && (lo <=? hi) && (hi <=? cap) then mret (mkFs (fs_loc s) (fs_off s + lo) (hi - lo))
  else mpanic PSlice.

(** n values rand.NormFloat64()*stddev + mean — layer/layer.go:143-153 *)
Definition normals (n : Z) : M (list float64) :=
  a ← lift (make_slice fzero n);
  mmap (fun _ => x ← normFloat64; mret (fadd (fmul x stdDev) fzero)) a.

(** Weights, biases and Adam moments of a new layer — layer/layer.go:128-161.  The bias array is
    only read by New, so it is a value here. *)
Definition init_params (E : env) (numOfNodes prev : Z) (weights : fslice) (bias : list float64) (mom vel : fslice)
    : M (fslice * list float64 * fslice * fslice) :=
  if e_LoadWeight E then
    mret (weights, bias, if e_UseAdam E then mom else fs_nil, if e_UseAdam E then vel else fs_nil)
  else
    let size := wrap64 (numOfNodes * prev) in
    ws ← normals size;
    wl ← alloc_f ws;
    bs ← normals numOfNodes;
    '(mo, ve) ← (if e_UseAdam E then mo ← make_f size; ve ← make_f size; mret (mo, ve)
                 else mret (fs_nil, fs_nil));
    mret (mkFs wl 0 size, bs, mo, ve).

(** The node loop of New — layer/layer.go:178-209; [ta] is trainArray. *)
Definition init_node (E : env) (cowId prev layerId : Z) (nodeType : NodeType) (batchSize : Z)
    (h : hashers) (tables : nat) (curWeights : fslice) (curBias : list float64) (curMom curVel : fslice)
    (ta : nat) (ntrain : Z) (ip : Z * nat) : M nat :=
  let '(i, p) := ip in
  let firstIndex := wrap64 (prev * i) in
  let lastIndex := wrap64 (firstIndex + prev) in
  '(mom, vel) ← (if e_UseAdam E then mo ← fslice_sub curMom firstIndex lastIndex;
                                     ve ← fslice_sub curVel firstIndex lastIndex; mret (mo, ve)
                 else mret (fs_nil, fs_nil));
  w ← fslice_sub curWeights firstIndex lastIndex;
  b ← lift (sget curBias i);
  let t0 := wrap64 (batchSize * i) in
  let t1 := wrap64 (t0 + batchSize) in
  _ ← (if (0 <=? t0) && (t0 <=? t1) && (t1 <=? ntrain) then mret tt else mpanic PSlice);
  n ← node_Update E cowId p prev i layerId nodeType batchSize w b mom vel (mkTs ta t0 batchSize);
  nw ← node_Weights n;
  _ ← layer_addToHashTable E h tables nw i;
  mret n.

(** New — layer/layer.go:61-222.  sparsity is unused; nobody can see the nodes array or the Layer
    before New returns, so both are allocated at the end. *)
Definition layer_New (E : env) (cowId numOfNodes prev layerId : Z) (nodeType : NodeType) (batchSize k l rangePow : Z)
    (sparsity : float64) (weights : fslice) (bias : list float64) (mom vel : fslice) : M nat :=
  zs ← lift (make_slice 0 numOfNodes);
  randNode ← with_rng (fun g => Ok (shuffle (seqZ 0 (Z.of_nat (length zs))) g));
  rn ← alloc_ia randNode;
  t ← with_rng (lsh_New k l rangePow);
  tables ← alloc_lsh t;
  h ← new_hashers E (mkHashers None None None None []) k l prev;
  '(cw, cb, cm, cv) ← init_params E numOfNodes prev weights bias mom vel;
  slots ← lift (make_slice tt (wrap64 (numOfNodes * batchSize)));
  trs ← mmap (fun _ => NewNodeTrain cowId) slots;
  ta ← alloc_ta trs;
  ps ← mmap (fun _ => NewEmptyNode cowId) zs;
  ns ← mmap (init_node E cowId prev layerId nodeType batchSize h tables cw cb cm cv ta (Z.of_nat (length trs)))
         (indexed ps);
  na ← alloc_na ns;
  norm ← (if is_softmax nodeType then nc ← make_f batchSize; mret (Some (fs_loc nc)) else mret None);
  alloc_layer (mkLayer cowId nodeType na rn norm k l prev tables (hs_wta h) (hs_min h) (hs_srp h) (hs_dwta h) (hs_binIds h)).

(** clone, cloneIfNeeded — layer/layer.go:632-645 *)
Definition layer_cloneIfNeeded (cowId : Z) (lp : nat) : M nat :=
  la ← load_layer lp;
  if l_cowId la =? cowId then mret lp
  else alloc_layer (mkLayer cowId (l_type la) (l_nodes la) (l_rand la) (l_norm la) (l_k la) (l_l la) (l_prev la)
                      (l_tables la) (l_wta la) (l_min la) (l_srp la) (l_dwta la) (l_binIds la)).

(** UpdateTable — layer/layer.go:225-251 *)
Definition layer_UpdateTable (E : env) (cowId : Z) (lp : nat) : M nat :=
  l ← layer_cloneIfNeeded cowId lp;
  la ← load_layer l;
  h ← new_hashers E (l_hashers la) (l_k la) (l_l la) (l_prev la);
  _ ← store_layer l (l_set_hashers la h);
  mret l.

(** UpdateRandomNodes — layer/layer.go:253-258.  rand.Shuffle(n, swap) first swaps position n-1. *)
Definition layer_UpdateRandomNodes (lp : nat) : M unit :=
  la ← load_layer lp;
  ns ← load_na (l_nodes la);
  rn ← load_ia (l_rand la);
  if (1 <? Z.of_nat (length ns)) && (Z.of_nat (length rn) <? Z.of_nat (length ns)) then mpanic PIndex
  else
    rn' ← with_rng (fun g => Ok (fisher_yates (Nat.pred (length ns)) rn g));
    store_ia (l_rand la) rn'.

(** GetNodeById, GetAllNodes (the array address), NumOfNodes — layer/layer.go:260-266, 557-559 *)
Definition layer_GetNodeById (lp : nat) (nodeId : Z) : M nat :=
  la ← load_layer lp; ns ← load_na (l_nodes la); lift (sget ns nodeId).
Definition layer_GetAllNodes (lp : nat) : M nat := la ← load_layer lp; mret (l_nodes la).
Definition layer_NumOfNodes (lp : nat) : M Z :=
  la ← load_layer lp; ns ← load_na (l_nodes la); mret (Z.of_nat (length ns)).

(** normalizationConstants[i] and its assignment; a nil slice has no elements *)
Definition norm_get (la : Layer) (i : Z) : M float64 :=
  match l_norm la with Some a => xs ← load_f a; lift (sget xs i) | None => mpanic PIndex end.
Definition norm_set (la : Layer) (i : Z) (v : float64) : M unit :=
  match l_norm la with
  | Some a => xs ← load_f a; xs' ← lift (sset xs i v); store_f a xs'
  | None => mpanic PIndex
  end.

(** GetNomalizationConstant — layer/layer.go:268-273; PMsg 5 is its panic message *)
Definition layer_GetNomalizationConstant (lp : nat) (inputId : Z) : M float64 :=
  la ← load_layer lp;
  if negb (is_softmax (l_type la)) then mpanic (PMsg 5) else norm_get la inputId.

(** ** Choosing the active nodes *)

Definition pair0 (i : Z) : Pair := mkPair i fzero.

(** sparsity == 1 — layer/layer.go:293-300 *)
Definition select_all (N : Z) : list Pair := map pair0 (seqZ 0 N).

(** LayerMode1 — layer/layer.go:334-357.  A Go map is iterated in an arbitrary order, which the
    random source chooses here. *)
Definition count_label (L : Z) (counts : gmap Z Z) (label : Z) : gmap Z Z := <[label := L]> counts.
Definition count_one (counts : gmap Z Z) (id : Z) : gmap Z Z := <[id := default 0 (counts !! id) + 1]> counts.
Definition select_mode1 (softmax : bool) (L : Z) (label : list Z) (actives : list (list Z)) (g : rng)
    : list Pair * rng :=
  let counts := if softmax && negb (Nat.eqb (length label) 0) then foldl (count_label L) ∅ label else ∅ in
  let counts := foldl (foldl count_one) counts actives in
  let '(kvs, g) := shuffle (map_to_list counts) g in
  let vect := foldl (fun vect (kv : Z * Z) => if threshold <? snd kv then vect ++ [pair0 (fst kv)] else vect) [] kvs in
  (vect, g).

(** LayerMode2 — layer/layer.go:359-379, for a softmax layer *)
Fixpoint mode2_fill (fuel : nat) (N length_ : Z) (active : list Pair) (bs : list bool) (tmpSize : Z) (g : rng)
    : res (list Pair * rng) :=
  if tmpSize <? length_ then
    match fuel with
    | O => Panic PFuel
    | S fuel' =>
        '(v, g) ← rand_intn N g;
        b ← sget bs v;
        if negb b then
          active ← sset active tmpSize (pair0 v);
          bs ← sset bs v true;
          mode2_fill fuel' N length_ active bs (tmpSize + 1) g
        else mode2_fill fuel' N length_ active bs tmpSize g
    end
  else Ok (active, g).
Definition select_mode2 (fuel : nat) (N : Z) (sparsity : float64) (label : list Z) (g : rng)
    : res (list Pair * rng) :=
  let length_ := int_floor (fmul (f_of_Z N) sparsity) in
  active ← make_slice (pair0 0) length_;
  bs ← make_slice false mapLen;
  '(active, bs) ← foldM (fun '(active, bs) '(i, labelValue) =>
      active ← sset active i (pair0 labelValue);
      bs ← sset bs labelValue true;
      Ok (active, bs)) (active, bs) (indexed label);
  mode2_fill fuel N length_ active bs (Z.of_nat (length label)) g.

(** innerproduct — layer/layer.go:621-630 *)
Definition innerproduct (active : list Pair) (w : list float64) : res float64 :=
  foldM (fun total p => x ← sget w (iv_index p); Ok (fadd total (fmul (iv_value p) x))) fzero active.

(** Less — layer/layer.go:54-59 *)
Definition byValue_less (a b : Pair) : bool :=
  if feqb (iv_value a) (iv_value b) then iv_index a <? iv_index b else fltb (iv_value a) (iv_value b).

(** sort.Sort(indexValuePairByValue(xs)): Less is a strict total order on pairs with distinct
    indices and no NaN, so the result is unique there, and insertion sort computes it.  (With NaNs
    the order produced by sort.Sort is unspecified.) *)
Fixpoint insert_pair (p : Pair) (xs : list Pair) : list Pair :=
  match xs with
  | [] => [p]
  | x :: xs' => if byValue_less p x then p :: xs else x :: insert_pair p xs'
  end.
Definition sort_pairs (xs : list Pair) : list Pair := foldr insert_pair [] xs.

(** LayerMode3 — layer/layer.go:382-415, for a softmax layer; [ws] are the weights and bias of
    every node. *)
Definition select_mode3 (N : Z) (sparsity : float64) (label : list Z) (cur : list Pair)
    (ws : list (list float64 * float64)) : res (list Pair * Z) :=
  let length_ := int_floor (fmul (f_of_Z N) sparsity) in
  active ← make_slice (pair0 0) length_;
  sortW ← mapM_res (fun '(s, (w, b)) =>
      tmp ← innerproduct cur w;
      let tmp := fadd tmp b in
      Ok (mkPair s (if intSliceContains label s then f_of_Z (-1000000000) else fneg tmp))) (indexed ws);
  foldM (fun '(active, in_) '(i, sw) =>
      active ← sset active i (pair0 (iv_index sw));
      Ok (active, if intSliceContains label (iv_index sw) then 1 else in_))
    (active, 0) (indexed (sort_pairs sortW)).

(** LayerMode4 — layer/layer.go:441-511 *)
Definition mode4_count (st : list Z * Z) (jVal : Z) : res (list Z * Z) :=
  let '(counts, size) := st in
  c ← sget counts jVal;
  if c =? -1 then counts ← sset counts jVal 1; Ok (counts, size + 1)
  else counts ← sset counts jVal (c + 1); Ok (counts, size).
(** One step of the two fallback loops (layer/layer.go:475-484, 487-495); the break is a step that
    changes nothing. *)
Definition mode4_extra (st : list Z * Z) (cIndex : Z) : res (list Z * Z) :=
  let '(counts, size) := st in
  if 1000 <=? size then Ok (counts, size)
  else
    c ← sget counts cIndex;
    if c =? -1 then counts ← sset counts cIndex 0; Ok (counts, size + 1) else Ok (counts, size).
Definition mode4_extra_at (rand : list Z) (st : list Z * Z) (i : Z) : res (list Z * Z) :=
  if 1000 <=? snd st then Ok st else cIndex ← sget rand i; mode4_extra st cIndex.
(** Copying the counted nodes into the new slice — layer/layer.go:503-510 *)
Definition mode4_copy (counts : list Z) (size : Z) : res (list Pair) :=
  active ← make_slice (pair0 0) size;
  '(active, _) ← foldM (fun '(active, i) '(index, value) =>
      if 0 <=? value then active ← sset active i (pair0 index); Ok (active, i + 1) else Ok (active, i))
    (active, 0) (indexed counts);
  Ok active.
Definition select_mode4 (N : Z) (softmax : bool) (L : Z) (rand label : list Z) (actives : list (list Z)) (g : rng)
    : res (list Pair * Z * rng) :=
  let counts := replicate (Z.to_nat N) (-1) in
  '(counts, size) ← (if softmax && negb (Nat.eqb (length label) 0) then
      counts ← foldM (fun counts labelValue => sset counts labelValue L) counts label;
      Ok (counts, Z.of_nat (length label)) else Ok (counts, 0));
  '(counts, size) ← foldM (foldM mode4_count) (counts, size) actives;
  let in_ := size in
  '(counts, size, g) ← (if size <? 1500 then
      '(start, g) ← rand_intn N g;
      st ← foldM (mode4_extra_at rand) (counts, size) (seqZ start (N - start));
      '(counts, size) ← (if snd st <? 1000 then foldM mode4_extra st rand else Ok st);
      Ok (counts, size, g)
    else Ok (counts, size, g));
  active ← mode4_copy counts size;
  Ok (active, in_, g).

(** Candidates from the hash tables — layer/layer.go:325-326, 438-439 *)
Definition retrieve (E : env) (h : hashers) (t : LSH) (cur : list Pair) : res (list (list Z)) :=
  hashes ← query_hashes E h cur;
  indices ← lsh_HashesToIndex (e_Hash E) t hashes;
  lsh_RetrieveRaw t indices.

(** The whole selection — layer/layer.go:285-513: the new active list ([None] when none is stored)
    and the count [in]. *)
Definition layer_select (E : env) (la : Layer) (ns : list nat) (cur : list Pair) (label : list Z) (sparsity : float64)
    : M (option (list Pair) * Z) :=
  let N := Z.of_nat (length ns) in
  let softmax := is_softmax (l_type la) in
  if feqb sparsity fone then mret (Some (select_all N), 0)
  else match e_Mode E with
  | LayerMode1 =>
      t ← load_lsh (l_tables la);
      actives ← lift (retrieve E (l_hashers la) t cur);
      vect ← with_rng (fun g => Ok (select_mode1 softmax (l_l la) label actives g));
      mret (Some vect, Z.of_nat (length vect))
  | LayerMode2 =>
      if softmax then
        active ← with_rng (select_mode2 (e_fuel E) N sparsity label);
        mret (Some active, 0)
      else mret (None, 0)
  | LayerMode3 =>
      if softmax then
        ws ← mmap (fun p => b ← get_base p; w ← fread (b_weights b); mret (w, b_bias b)) ns;
        '(active, in_) ← lift (select_mode3 N sparsity label cur ws);
        mret (Some active, in_)
      else mret (None, 0)
  | LayerMode4 =>
      t ← load_lsh (l_tables la);
      actives ← lift (retrieve E (l_hashers la) t cur);
      rand ← load_ia (l_rand la);
      '(active, in_) ← with_rng (fun g => '(a, i, g) ← select_mode4 N softmax (l_l la) rand label actives g; Ok ((a, i), g));
      mret (Some active, in_)
  | LayerModeOther => mret (None, 0)
  end.

(** value, nodes[pair.Index] = nodes[pair.Index].GetActivation(...) — layer/layer.go:527-536 *)
Definition activate_node (cowId : Z) (la : Layer) (cur : list Pair) (inputId : Z)
    (st : list Pair * float64) (p : Pair) : M (list Pair * float64) :=
  let '(next, maxValue) := st in
  ns ← load_na (l_nodes la);
  n ← lift (sget ns (iv_index p));
  '(value, n') ← node_GetActivation cowId n cur inputId;
  ns ← load_na (l_nodes la);
  ns' ← lift (sset ns (iv_index p) n');
  _ ← store_na (l_nodes la) ns';
  mret (next ++ [mkPair (iv_index p) value],
        if is_softmax (l_type la) && fltb maxValue value then value else maxValue).

(** The softmax loop body — layer/layer.go:541-547 *)
Definition softmax_node (E : env) (cowId : Z) (la : Layer) (inputId : Z) (maxValue : float64)
    (next : list Pair) (p : Pair) : M (list Pair) :=
  let realActivation := e_exp E (fsub (iv_value p) maxValue) in
  ns ← load_na (l_nodes la);
  n ← lift (sget ns (iv_index p));
  n' ← node_SetlastActivation cowId n inputId realActivation;
  ns ← load_na (l_nodes la);
  ns' ← lift (sset ns (iv_index p) n');
  _ ← store_na (l_nodes la) ns';
  x ← norm_get la inputId;
  _ ← norm_set la inputId (fadd x realActivation);
  mret (next ++ [mkPair (iv_index p) realActivation]).

(** QueryActiveNodeAndComputeActivations — layer/layer.go:275-551.  The slice of active-node slices
    is passed and returned as a value: each caller makes a fresh one per example. *)
Definition layer_Query (E : env) (cowId : Z) (lp : nat) (anpl : list (list Pair)) (layerIndex inputId : Z)
    (label : list Z) (sparsity : float64) : M (Z * list (list Pair) * nat) :=
  l ← layer_cloneIfNeeded cowId lp;
  la ← load_layer l;
  cur ← lift (sget anpl layerIndex);
  ns ← load_na (l_nodes la);
  '(sel, in_) ← layer_select E la ns cur label sparsity;
  anpl ← lift (match sel with Some a => sset anpl (layerIndex + 1) a | None => Ok anpl end);
  next ← lift (sget anpl (layerIndex + 1));
  _ ← (if is_softmax (l_type la) then norm_set la inputId fzero else mret tt);
  '(next, maxValue) ← mfold (activate_node cowId la cur inputId) ([], fzero) next;
  next ← (if is_softmax (l_type la) then mfold (softmax_node E cowId la inputId maxValue) [] next else mret next);
  anpl ← lift (sset anpl (layerIndex + 1) next);
  mret (in_, anpl, l).

(** ClearHashTables, HashesToIndex, HashTablesAdd, GetHashForInputProcessing —
    layer/layer.go:553-555, 561-588 *)
Definition layer_ClearHashTables (lp : nat) : M unit :=
  la ← load_layer lp; t ← load_lsh (l_tables la); store_lsh (l_tables la) (lsh_Clear t).
Definition layer_HashesToIndex (E : env) (lp : nat) (hashes : list Z) : M (list Z) :=
  la ← load_layer lp; t ← load_lsh (l_tables la); lift (lsh_HashesToIndex (e_Hash E) t hashes).
Definition layer_HashTablesAdd (lp : nat) (indices : list Z) (id : Z) : M (list Z) :=
  la ← load_layer lp; t ← load_lsh (l_tables la);
  '(r, t') ← lift (lsh_Add t indices id);
  _ ← store_lsh (l_tables la) t';
  mret r.
Definition layer_GetHashForInputProcessing (E : env) (lp : nat) (weights : fslice) : M (list Z) :=
  la ← load_layer lp; ws ← fread weights; sp ← fspare weights;
  lift (weight_hashes E (l_hashers la) ws sp).
