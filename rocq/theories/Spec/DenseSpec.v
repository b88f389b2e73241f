(** The class a dense network predicts, as a function of its weights and biases and of the features. *)
From Verif.Spec Require Export InferSpec.

(** What is left of a network when only its parameters count: the type of each layer, and for each node its type,
    weights and bias. *)
Definition parameters := list (NodeType * list (NodeType * list float64 * float64)).
Definition parameters_of (lvs : list LayerView) : parameters :=
  map (fun lv => (lv_type lv, map (fun v => (v_type v, v_w v, v_bias v)) (lv_nodes lv))) lvs.

(** The weighted sum of the inputs, from left to right. *)
Definition dot (w : list float64) (cur : list Pair) : float64 :=
  fold_left (fun s p => fadd s (fmul (default fzero (w !! Z.to_nat (iv_index p))) (iv_value p))) cur fzero.
Definition node_value (cur : list Pair) (nd : NodeType * list float64 * float64) : float64 :=
  let '(ty, w, b) := nd in
  let a := fadd (dot w cur) b in
  match ty with ReLU => if fltb a fzero then fzero else a | _ => a end.
(** The output of a layer all of whose nodes are active. *)
Definition dense_layer (exp : float64 -> float64) (l : NodeType * list (NodeType * list float64 * float64)) (cur : list Pair)
    : list Pair :=
  let acts := map (node_value cur) l.2 in
  let mx := fold_left (fun mx a => if fltb mx a then a else mx) acts fzero in
  zip_with mkPair (seqZ 0 (Z.of_nat (length l.2)))
    (if is_softmax l.1 then map (fun a => exp (fsub a mx)) acts else acts).
(** The first node of the last layer with the greatest value. *)
Definition dense_class (exp : float64 -> float64) (ps : parameters) (feats : list Pair) : Z :=
  match fold_left (fun cur l => dense_layer exp l cur) ps feats with
  | [] => 0
  | p :: out => iv_index (fold_left (fun best q => if fltb (iv_value best) (iv_value q) then q else best) out p)
  end.

(** The prediction sparsities (the second half of the list) are all 1. *)
Definition dense_prediction (n : Network) : Prop :=
  forall j : nat, Z.of_nat j < nw_num n -> exists sp, nw_sparsity n !! (Z.to_nat (nw_num n) + j)%nat = Some sp /\ feqb sp fone = true.

(** Predicting several batches one after the other: the total number of hits. *)
Definition predict_batches (E : env) (c : Z) (n : Network) (batches : list (list Example_)) : M Z :=
  mfold (fun total exs => '(k, _) ← network_PredictClass E c n exs; mret (total + k)) 0 batches.
