(** The ranges of the numbers in a network. *)
From Verif.Spec Require Export BatchSpec.

(** [x] lies between [a] and [b], or is NaN. *)
Definition within (a b x : float64) : Prop := Float64.is_nan x = true \/ (fleb a x = true /\ fleb x b = true).
Definition fmone : float64 := fneg fone.

(** What is assumed of the math functions: they return binary64 numbers, and Exp lies between 0 and 1 where its
    argument is not positive. *)
Record math_ok (E : env) : Prop := mkMathOk {
  mo_exp : forall x, representable x -> representable (e_exp E x);
  mo_exp1 : forall x, representable x -> fltb fzero x = false -> within fzero fone (e_exp E x);
  mo_pow : forall x y, representable x -> representable y -> representable (e_pow E x y)
}.
(** All feature values of the examples are binary64 numbers. *)
Definition values_ok (exs : list Example_) : Prop := Forall (fun ex => Forall (fun p => representable (iv_value p)) (features ex)) exs.
Definition op_ok (o : net_op) : Prop := match o with OpTrain exs _ _ _ => values_ok exs | OpPredict _ => True end.

(** All parameters of a node are binary64 numbers: the weights, the bias, and with Adam their moments. *)
Definition node_representable (adam : bool) (v : NodeView) : Prop :=
  Forall representable (v_w v) /\ representable (v_bias v) /\
  (adam = true -> Forall representable (v_mom v) /\ Forall representable (v_vel v) /\ representable (v_momBias v) /\ representable (v_velBias v)).

(** The outputs of the layers: what a ReLU layer puts out is never negative, what a softmax layer puts out is
    between 0 and 1. *)
Definition outputs_in_range (types : list NodeType) (outs : list (list Pair)) : Prop :=
  forall j ty out p, types !! j = Some ty -> outs !! S j = Some out -> p ∈ out ->
    representable (iv_value p) /\
    match ty with ReLU => not_negative (iv_value p) | Softmax => within fzero fone (iv_value p) | TypeOther => True end.

(** The share of each output node in the sum of the outputs is between 0 and 1. *)
Definition shares_in_range (out : list Pair) : Prop :=
  forall p, p ∈ out -> within fzero fone (fdiv (iv_value p) (fadd (fold_left fadd (map iv_value out) fzero) (dec 1 (10 ^ 7)))).
(** The errors [d] of the output nodes [out]: between -1 and 1; not positive for a node that is no label; not
    negative for a label when there are at most as many labels as examples in a batch. *)
Definition errors_in_range (batch : Z) (lab : list Z) (out : list Pair) (d : list float64) : Prop :=
  forall a p x, out !! a = Some p -> d !! a = Some x ->
    within fmone fone x /\
    (iv_index p ∉ lab -> within fmone fzero x) /\
    (iv_index p ∈ lab -> Z.of_nat (length lab) <= batch -> within fzero fone x).
(** A pass through a network with the given layer types. *)
Definition pass_in_range (batch : Z) (types : list NodeType) (lab : list Z) (p : pass) : Prop :=
  outputs_in_range types p.1 /\ Forall (Forall representable) p.2 /\
  forall out d, last types = Some Softmax -> last p.1 = Some out -> last p.2 = Some d ->
    shares_in_range out /\ errors_in_range batch lab out d.
(** The examples of the training calls among [os]. *)
Definition trained_examples (os : list net_op) : list (list Example_) :=
  omap (fun o => match o with OpTrain exs _ _ _ => Some exs | OpPredict _ => None end) os.
