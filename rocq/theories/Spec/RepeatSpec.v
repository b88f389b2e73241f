(** The class predicted when only the output layer is sampled, by LayerMode1. *)
From Verif.Spec Require Export DenseSpec.
Local Open Scope Z_scope.

(** Predictions use every node of every layer but the last, and a sample of the last. *)
Definition sampled_output (n : Network) : Prop :=
  (forall j : nat, Z.of_nat j < nw_num n - 1 -> exists sp, nw_sparsity n !! (Z.to_nat (nw_num n) + j)%nat = Some sp /\ feqb sp fone = true) /\
  exists sp, nw_sparsity n !! (Z.to_nat (nw_num n) + Z.to_nat (nw_num n - 1))%nat = Some sp /\ feqb sp fone = false.

(** The activation of node [j] of a layer, and its value in the output if the greatest activation is [top]. *)
Definition score (l : NodeType * list (NodeType * list float64 * float64)) (cur : list Pair) (j : Z) : float64 :=
  match l.2 !! Z.to_nat j with Some nd => node_value cur nd | None => fzero end.
Definition output_value (exp : float64 -> float64) (l : NodeType * list (NodeType * list float64 * float64)) (top s : float64) : float64 :=
  if is_softmax l.1 then exp (fsub s (if fltb fzero top then top else fzero)) else s.

(** [w] is the clear winner for the example: it is in the buckets of more than two tables, and every other such node has
    a smaller activation and a smaller output.  Only parameters, hash functions and tables are looked at. *)
Definition wins (E : env) (nv : NetView) (ex : Example_) (w : Z) : Prop :=
  let ps := parameters_of (nv_layers nv) in
  let cur := fold_left (fun cur l => dense_layer (e_exp E) l cur) (removelast ps) (features ex) in
  exists lv l retrieved, last (nv_layers nv) = Some lv /\ last ps = Some l /\
    found E (lv_hash lv) (lv_tables lv) cur retrieved /\ 2 < occ (concat retrieved) w /\
    forall j, 2 < occ (concat retrieved) j -> j <> w ->
      fltb (score l cur j) (score l cur w) = true /\
      fltb (output_value (e_exp E) l (score l cur w) (score l cur j)) (output_value (e_exp E) l (score l cur w) (score l cur w)) = true.
