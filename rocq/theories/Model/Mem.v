(** The mutable memory of the node, layer and network packages: the struct types, the Go
    pointers and slice headers between them, and the state monad the model is written in.

    Go's type system keeps pointers of different types apart, so the memory is one region per
    type; an object's address is its position in the region and allocation appends (so addresses
    are never reused: garbage collection is not modelled). *)
From Verif.Model Require Export Lsh Wta Dwta Minhash Srp.

(** A slice header over a float64 array: array address, offset, length.  nil has length 0.
    The capacity of every such slice in the code extends to the end of its array. *)
Record fslice := mkFs { fs_loc : nat; fs_off : Z; fs_len : Z }.
Definition fs_nil : fslice := mkFs 0 0 0.

(** A slice header over an array of *NodeTrain. *)
Record tslice := mkTs { ts_loc : nat; ts_off : Z; ts_len : Z }.
Definition ts_nil : tslice := mkTs 0 0 0.

(** type NodeType — node/node_type.go:7-12; [TypeOther] is any other int8 value *)
Inductive NodeType := ReLU | Softmax | TypeOther.
Definition is_softmax (t : NodeType) : bool := match t with Softmax => true | _ => false end.

(** type NodeTrain — node/node.go:35-40 *)
Record NodeTrain := mkTrain {
  tr_cowId : Z; tr_delta : float64; tr_act : float64; tr_active : float64
}.

(** type baseNode — node/node.go:18-33 *)
Record baseNode := mkBase {
  b_cowId : Z; b_type : NodeType; b_batch : Z; b_id : Z;
  b_weights : fslice; b_mirror : fslice; b_mom : fslice; b_vel : fslice; b_t : fslice;
  b_bias : float64; b_tBias : float64; b_momBias : float64; b_velBias : float64; b_mirrorBias : float64
}.

(** type Node — node/node.go:12-16; base is a pointer *)
Record Node := mkNode { n_cowId : Z; n_base : nat; n_train : tslice }.

(** type Layer — layer/layer.go:31-46.  nodes, randNode and normalizationConstants are whole
    arrays, given by address ([None] for the nil normalizationConstants).  The hashers are never
    mutated after construction, so the layer holds their values; [None] is a nil pointer. *)
Record Layer := mkLayer {
  l_cowId : Z; l_type : NodeType; l_nodes : nat; l_rand : nat; l_norm : option nat;
  l_k : Z; l_l : Z; l_prev : Z; l_tables : nat;
  l_wta : option WtaHash; l_min : option Minhash; l_srp : option Srp; l_dwta : option Dwta;
  l_binIds : list Z
}.

(** The whole memory.  [m_norm] is the stream rand.NormFloat64 reads from, [m_seeds] counts the
    maphash seeds made so far. *)
Record mem := mkMem {
  m_f : list (list float64);     (* float64 arrays *)
  m_tr : list NodeTrain;
  m_ta : list (list nat);        (* arrays of *NodeTrain *)
  m_base : list baseNode;
  m_node : list Node;
  m_na : list (list nat);        (* arrays of *Node *)
  m_ia : list (list Z);          (* int arrays: randNode *)
  m_lsh : list LSH;
  m_layer : list Layer;
  m_la : list (list nat);        (* arrays of *Layer *)
  m_rng : rng;
  m_norm : nat -> float64; m_npos : nat; m_seeds : nat
}.

Definition upd_f (g : list (list float64) -> list (list float64)) (m : mem) : mem :=
  mkMem (g (m_f m)) (m_tr m) (m_ta m) (m_base m) (m_node m) (m_na m) (m_ia m) (m_lsh m) (m_layer m) (m_la m) (m_rng m) (m_norm m) (m_npos m) (m_seeds m).
Definition upd_tr (g : list NodeTrain -> list NodeTrain) (m : mem) : mem :=
  mkMem (m_f m) (g (m_tr m)) (m_ta m) (m_base m) (m_node m) (m_na m) (m_ia m) (m_lsh m) (m_layer m) (m_la m) (m_rng m) (m_norm m) (m_npos m) (m_seeds m).
Definition upd_ta (g : list (list nat) -> list (list nat)) (m : mem) : mem :=
  mkMem (m_f m) (m_tr m) (g (m_ta m)) (m_base m) (m_node m) (m_na m) (m_ia m) (m_lsh m) (m_layer m) (m_la m) (m_rng m) (m_norm m) (m_npos m) (m_seeds m).
Definition upd_base (g : list baseNode -> list baseNode) (m : mem) : mem :=
  mkMem (m_f m) (m_tr m) (m_ta m) (g (m_base m)) (m_node m) (m_na m) (m_ia m) (m_lsh m) (m_layer m) (m_la m) (m_rng m) (m_norm m) (m_npos m) (m_seeds m).
Definition upd_node (g : list Node -> list Node) (m : mem) : mem :=
  mkMem (m_f m) (m_tr m) (m_ta m) (m_base m) (g (m_node m)) (m_na m) (m_ia m) (m_lsh m) (m_layer m) (m_la m) (m_rng m) (m_norm m) (m_npos m) (m_seeds m).
Definition upd_na (g : list (list nat) -> list (list nat)) (m : mem) : mem :=
  mkMem (m_f m) (m_tr m) (m_ta m) (m_base m) (m_node m) (g (m_na m)) (m_ia m) (m_lsh m) (m_layer m) (m_la m) (m_rng m) (m_norm m) (m_npos m) (m_seeds m).
Definition upd_ia (g : list (list Z) -> list (list Z)) (m : mem) : mem :=
  mkMem (m_f m) (m_tr m) (m_ta m) (m_base m) (m_node m) (m_na m) (g (m_ia m)) (m_lsh m) (m_layer m) (m_la m) (m_rng m) (m_norm m) (m_npos m) (m_seeds m).
Definition upd_lsh (g : list LSH -> list LSH) (m : mem) : mem :=
  mkMem (m_f m) (m_tr m) (m_ta m) (m_base m) (m_node m) (m_na m) (m_ia m) (g (m_lsh m)) (m_layer m) (m_la m) (m_rng m) (m_norm m) (m_npos m) (m_seeds m).
Definition upd_layer (g : list Layer -> list Layer) (m : mem) : mem :=
  mkMem (m_f m) (m_tr m) (m_ta m) (m_base m) (m_node m) (m_na m) (m_ia m) (m_lsh m) (g (m_layer m)) (m_la m) (m_rng m) (m_norm m) (m_npos m) (m_seeds m).
Definition upd_la (g : list (list nat) -> list (list nat)) (m : mem) : mem :=
  mkMem (m_f m) (m_tr m) (m_ta m) (m_base m) (m_node m) (m_na m) (m_ia m) (m_lsh m) (m_layer m) (g (m_la m)) (m_rng m) (m_norm m) (m_npos m) (m_seeds m).
Definition upd_rng (g : rng) (m : mem) : mem :=
  mkMem (m_f m) (m_tr m) (m_ta m) (m_base m) (m_node m) (m_na m) (m_ia m) (m_lsh m) (m_layer m) (m_la m) g (m_norm m) (m_npos m) (m_seeds m).
Definition upd_npos (n : nat) (m : mem) : mem :=
  mkMem (m_f m) (m_tr m) (m_ta m) (m_base m) (m_node m) (m_na m) (m_ia m) (m_lsh m) (m_layer m) (m_la m) (m_rng m) (m_norm m) n (m_seeds m).
Definition upd_seeds (n : nat) (m : mem) : mem :=
  mkMem (m_f m) (m_tr m) (m_ta m) (m_base m) (m_node m) (m_na m) (m_ia m) (m_lsh m) (m_layer m) (m_la m) (m_rng m) (m_norm m) (m_npos m) n.

(** Computations over the memory; a panic ends the program, so it carries no memory. *)
Definition M (A : Type) : Type := mem -> res (A * mem).
Global Instance M_ret : MRet M := fun A a m => Ok (a, m).
Global Instance M_bind : MBind M := fun A B f c m =>
  match c m with Ok (a, m') => f a m' | Panic p => Panic p end.

Definition mpanic {A} (p : gopanic) : M A := fun _ => Panic p.
Definition lift {A} (r : res A) : M A := fun m => match r with Ok a => Ok (a, m) | Panic p => Panic p end.
Definition modify (f : mem -> mem) : M unit := fun m => Ok (tt, f m).

(** for _, x := range xs { s = body(s, x) } *)
Fixpoint mfold {S A} (f : S -> A -> M S) (s : S) (xs : list A) : M S :=
  match xs with
  | [] => mret s
  | x :: xs' => s' ← f s x; mfold f s' xs'
  end.
Definition miter {A} (f : A -> M unit) (xs : list A) : M unit := mfold (fun _ x => f x) tt xs.

(** r := make(...); for i, x := range xs { r[i] = f(x) } *)
Fixpoint mmap {A B} (f : A -> M B) (xs : list A) : M (list B) :=
  match xs with
  | [] => mret []
  | x :: xs' => y ← f x; ys ← mmap f xs'; mret (y :: ys)
  end.

(** *p; a dangling address (nil) panics. *)
Definition load {A} (region : mem -> list A) (l : nat) : M A := fun m =>
  match region m !! l with Some a => Ok (a, m) | None => Panic PNil end.
(** *p = v *)
Definition store {A} (region : mem -> list A) (upd : (list A -> list A) -> mem -> mem) (l : nat) (v : A) : M unit :=
  fun m => match region m !! l with Some _ => Ok (tt, upd (fun r => <[l := v]> r) m) | None => Panic PNil end.
(** &T{...} *)
Definition alloc {A} (region : mem -> list A) (upd : (list A -> list A) -> mem -> mem) (v : A) : M nat :=
  fun m => Ok (length (region m), upd (fun r => r ++ [v]) m).

Notation load_f := (load m_f). Notation store_f := (store m_f upd_f). Notation alloc_f := (alloc m_f upd_f).
Notation load_tr := (load m_tr). Notation store_tr := (store m_tr upd_tr). Notation alloc_tr := (alloc m_tr upd_tr).
Notation load_ta := (load m_ta). Notation store_ta := (store m_ta upd_ta). Notation alloc_ta := (alloc m_ta upd_ta).
Notation load_base := (load m_base). Notation store_base := (store m_base upd_base). Notation alloc_base := (alloc m_base upd_base).
Notation load_node := (load m_node). Notation store_node := (store m_node upd_node). Notation alloc_node := (alloc m_node upd_node).
Notation load_na := (load m_na). Notation store_na := (store m_na upd_na). Notation alloc_na := (alloc m_na upd_na).
Notation load_ia := (load m_ia). Notation store_ia := (store m_ia upd_ia). Notation alloc_ia := (alloc m_ia upd_ia).
Notation load_lsh := (load m_lsh). Notation store_lsh := (store m_lsh upd_lsh). Notation alloc_lsh := (alloc m_lsh upd_lsh).
Notation load_layer := (load m_layer). Notation store_layer := (store m_layer upd_layer). Notation alloc_layer := (alloc m_layer upd_layer).
Notation load_la := (load m_la). Notation store_la := (store m_la upd_la). Notation alloc_la := (alloc m_la upd_la).

(** s[i] and s[i] = v on float slices *)
Definition fget (s : fslice) (i : Z) : M float64 :=
  if (i <? 0) || (fs_len s <=? i) then mpanic PIndex
  else a ← load_f (fs_loc s); lift (sget a (fs_off s + i)).
Definition fset (s : fslice) (i : Z) (v : float64) : M unit :=
  if (i <? 0) || (fs_len s <=? i) then mpanic PIndex
  else a ← load_f (fs_loc s); a' ← lift (sset a (fs_off s + i) v); store_f (fs_loc s) a'.

(** The elements of a slice, and those between its length and its capacity. *)
Definition fslice_read (a : list float64) (s : fslice) : list float64 :=
  take (Z.to_nat (fs_len s)) (drop (Z.to_nat (fs_off s)) a).
Definition fread (s : fslice) : M (list float64) :=
  if fs_len s <=? 0 then mret [] else a ← load_f (fs_loc s); mret (fslice_read a s).
Definition fspare (s : fslice) : M (list float64) :=
  if fs_len s <=? 0 then mret [] else a ← load_f (fs_loc s); mret (drop (Z.to_nat (fs_off s + fs_len s)) a).

(** copy(dst, src) on float slices of the same or of different arrays *)
Definition fcopy (dst src : fslice) : M unit :=
  if (fs_len dst <=? 0) || (fs_len src <=? 0) then mret tt
  else
    sv ← fread src;
    a ← load_f (fs_loc dst);
    a' ← lift (copy_range a (fs_off dst) (fs_off dst + fs_len dst) sv);
    store_f (fs_loc dst) a'.

(** train[i] and train[i] = p *)
Definition tget (s : tslice) (i : Z) : M nat :=
  if (i <? 0) || (ts_len s <=? i) then mpanic PIndex
  else a ← load_ta (ts_loc s); lift (sget a (ts_off s + i)).
Definition tset (s : tslice) (i : Z) (p : nat) : M unit :=
  if (i <? 0) || (ts_len s <=? i) then mpanic PIndex
  else a ← load_ta (ts_loc s); a' ← lift (sset a (ts_off s + i) p); store_ta (ts_loc s) a'.

(** Use of the global random source. *)
Definition with_rng {A} (f : rng -> res (A * rng)) : M A := fun m =>
  match f (m_rng m) with Ok (a, g) => Ok (a, upd_rng g m) | Panic p => Panic p end.
(** rand.NormFloat64() *)
Definition normFloat64 : M float64 := fun m => Ok (m_norm m (m_npos m), upd_npos (S (m_npos m)) m).

(** configuration.Global fields read by these packages (configuration/configuration.go:14-41), and
    the math functions that are not modelled: [e_exp], [e_pow], [e_log2] stand for math.Exp,
    math.Pow, math.Log2, and [e_mh s] for maphash under the s-th seed.  [e_fuel] bounds the
    iterations of the one loop that need not end (layer/layer.go:371-378). *)
Record env := mkEnv {
  e_UseAdam : bool; e_LoadWeight : bool; e_Hash : HashFunctionType; e_Mode : LayerModeType;
  e_exp : float64 -> float64; e_pow : float64 -> float64 -> float64; e_log2 : float64 -> float64;
  e_mh : nat -> Z -> Z; e_fuel : nat
}.
