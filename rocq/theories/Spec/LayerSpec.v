(** What a caller of a layer sees, and the vocabulary of the layer properties. *)
From Verif.Model Require Export Layer.
From stdpp Require Import sorting.
Local Open Scope Z_scope.

(** The layer behind pointer [lp]: its record, node pointers, fallback order and tables. *)
Record layer_at (m : mem) (lp : nat) (la : Layer) (ns : list nat) (rn : list Z) (t : LSH) : Prop := mkLayerAt {
  at_layer : m_layer m !! lp = Some la;
  at_nodes : m_na m !! l_nodes la = Some ns;
  at_rand : m_ia m !! l_rand la = Some rn;
  at_tables : m_lsh m !! l_tables la = Some t
}.

(** The active nodes of layer [li] in the slice of active-node slices. *)
Definition active_of (anpl : list (list Pair)) (li : Z) : list Z :=
  map iv_index (default [] (anpl !! Z.to_nat (li + 1))).

(** The hash codes of a layer's input, and of the weights of a node, under the layer's hash functions; the minhash
    looks at 30 values only. *)
Definition input_codes (E : env) (h : hashers) (cur : list Pair) (codes : list Z) : Prop :=
  match e_Hash E with
  | WtaHashFunction => exists w, hs_wta h = Some w /\ wta_GetHash w cur = Ok codes
  | DensifiedWtaHashFunction => exists d, hs_dwta h = Some d /\ dwta_GetHash d cur = Ok codes
  | DensifiedMinhashFunction => exists mn, hs_min h = Some mn /\ mn_GetHashEasy mn (hs_binIds h) cur [] 30 = Ok codes
  | SparseRandomProjectionHashFunction => exists s, hs_srp h = Some s /\ srp_GetHashSparse s cur = Ok codes
  | HashOther => False
  end.
Definition weight_codes (E : env) (h : hashers) (w : list float64) (codes : list Z) : Prop :=
  match e_Hash E with
  | WtaHashFunction => exists t, hs_wta h = Some t /\ wta_GetHashDense t w = Ok codes
  | DensifiedWtaHashFunction => exists d, hs_dwta h = Some d /\ dwta_GetHashEasy d w 30 = Ok codes
  | DensifiedMinhashFunction => exists mn, hs_min h = Some mn /\ mn_GetHashEasyDense mn (hs_binIds h) w [] 30 = Ok codes
  | SparseRandomProjectionHashFunction => exists s, hs_srp h = Some s /\ srp_GetHash s w = Ok codes
  | HashOther => False
  end.
(** The ids found in the tables for an input: those of the bucket of each table that its codes lead to. *)
Definition found (E : env) (h : hashers) (t : LSH) (cur : list Pair) (ids : list (list Z)) : Prop :=
  exists codes buckets, input_codes E h cur codes /\ lsh_HashesToIndex (e_Hash E) t codes = Ok buckets /\
    lsh_RetrieveRaw t buckets = Ok ids.

(** The labels (softmax layers only) and all node ids retrieved from the tables. *)
Definition candidates (softmax : bool) (label : list Z) (retrieved : list (list Z)) : list Z :=
  (if softmax then label else []) ++ concat retrieved.
Definition distinct (l : list Z) : Z := Z.of_nat (length (remove_dups l)).

(** The number of times [j] was retrieved; the score of [j] in LayerMode1: a label of a softmax
    layer counts [L], every retrieval counts one. *)
Definition occ (ids : list Z) (j : Z) : Z := Z.of_nat (length (filter (fun x => x = j) ids)).
Definition tally (softmax : bool) (L : Z) (label : list Z) (retrieved : list (list Z)) (j : Z) : Z :=
  (if softmax && bool_decide (j ∈ label) then L else 0) + occ (concat retrieved) j.

(** The number of nodes LayerMode2 and LayerMode3 aim at. *)
Definition target_size {A} (ns : list A) (sparsity : float64) : Z :=
  int_floor (fmul (f_of_Z (Z.of_nat (length ns))) sparsity).

(** The weights and the bias of a node. *)
Definition node_params (m : mem) (n : nat) (w : list float64) (b : float64) : Prop :=
  exists nd ba, m_node m !! n = Some nd /\ m_base m !! n_base nd = Some ba /\
    fread (b_weights ba) m = Ok (w, m) /\ b_bias ba = b.

(** What LayerMode4 adds to the candidates, of which [n] are counted: the first nodes that are not candidates, in the
    fallback order from some position on (and from its beginning after its end), until 1000 are counted. *)
Definition fill (cand rn : list Z) (n : Z) (start : nat) : list Z :=
  take (Z.to_nat (1000 - n)) (filter (fun j => j ∉ cand) (drop start rn ++ take start rn)).

(** The sum of the products of the inputs with the weights, in the order of the inputs. *)
Definition inner_sum (cur : list Pair) (w : list float64) (s : float64) : Prop :=
  Forall (fun p => 0 <= iv_index p < Z.of_nat (length w)) cur /\
  s = fold_left (fun t p => fadd t (fmul (iv_value p) (default fzero (w !! Z.to_nat (iv_index p))))) cur fzero.
(** The sort key LayerMode3 gives to node [j]: -1000000000 for a label, otherwise minus the node's
    pre-activation (the float64 sum of the products in input order, plus the bias). *)
Definition rank_key (label : list Z) (cur : list Pair) (j : Z) (w : list float64) (b x : float64) : Prop :=
  if bool_decide (j ∈ label) then x = f_of_Z (-1000000000)
  else exists s, inner_sum cur w s /\ x = fneg (fadd s b).

(** Ranked: no later key is less, and equal keys are in the order of the nodes. *)
Definition ranked (ps : list Pair) : Prop :=
  StronglySorted (fun p q => fltb (iv_value q) (iv_value p) = false /\
    (feqb (iv_value p) (iv_value q) = true -> iv_index p < iv_index q)) ps.

(** [UpdateRandomNodes] called [n] times. *)
Fixpoint repeatM (n : nat) (c : M unit) : M unit :=
  match n with O => mret tt | S n' => _ ← c; repeatM n' c end.

(** The layer at [lp] has [N] nodes and its fallback order is a permutation of 0..N-1. *)
Definition in_order (m : mem) (lp : nat) (N : Z) : Prop :=
  exists la ns rn, m_layer m !! lp = Some la /\ m_na m !! l_nodes la = Some ns /\ Z.of_nat (length ns) = N /\
    m_ia m !! l_rand la = Some rn /\ rn ≡ₚ seqZ 0 N.

(** The same result on a memory with other hash tables. *)
Definition with_tables {A} (f : list LSH -> list LSH) (r : res (A * mem)) : res (A * mem) :=
  match r with Ok (a, m) => Ok (a, upd_lsh f m) | Panic p => Panic p end.
