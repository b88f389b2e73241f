(** The gradient of a batch of examples, and the parameters a training call leaves. *)
From Verif.Spec Require Export AdamSpec.

(** A pass of an example through the network: the features and the output of each layer, and the errors of the
    active nodes of each layer.  In each layer a node is active at most once. *)
Definition pass := (list (list Pair) * list (list float64))%type.
Definition pass_of (E : env) (batch : Z) (lvs : list LayerView) (sparsity : list float64) (ex : Example_) (p : pass) : Prop :=
  inference E lvs sparsity 0 (labels ex) (features ex) p.1 /\ errors batch lvs (labels ex) p.1 p.2 /\
  Forall (fun out => NoDup (map iv_index out)) (tail p.1).
(** The inputs of layer [j] in the pass. *)
Definition inputs_of (p : pass) (j : nat) : list Pair := default [] (p.1 !! j).
(** The error of node [k] of layer [j] in the pass; none if the node was not active. *)
Definition error_of (p : pass) (j k : nat) : option float64 :=
  out ← p.1 !! S j; d ← p.2 !! j; a ← list_find (fun q => iv_index q = Z.of_nat k) out; d !! a.1.

(** What the passes add to the gradient of the weights of node [k] of layer [j], and to that of its bias. *)
Definition weight_gradient (ps : list pass) (j k : nat) (t : list float64) : list float64 :=
  fold_left (fun t p => match error_of p j k with Some d => accumulate (fmul d) t (inputs_of p j) | None => t end) ps t.
Definition bias_gradient (ps : list pass) (j k : nat) (t : float64) : float64 :=
  fold_left (fun t p => match error_of p j k with Some d => fadd t d | None => t end) ps t.

(** One Adam step with the gradient [t] (weights) and [tb] (bias): [v'] is [v] after it. *)
Record adam_step (lr : float64) (t : list float64) (tb : float64) (v v' : NodeView) : Prop := mkAdamStep {
  ast_len : length t = length (v_w v) /\ length (v_w v') = length (v_w v) /\ length (v_mom v') = length (v_w v) /\ length (v_vel v') = length (v_w v);
  ast_at : forall i g mo ve w, t !! i = Some g -> v_mom v !! i = Some mo -> v_vel v !! i = Some ve -> v_w v !! i = Some w ->
    v_mom v' !! i = Some (adam_mom g mo) /\ v_vel v' !! i = Some (adam_vel g ve) /\
    v_w v' !! i = Some (adam_par lr (adam_mom g mo) (adam_vel g ve) w);
  ast_bias : v_momBias v' = adam_mom tb (v_momBias v) /\ v_velBias v' = adam_vel tb (v_velBias v) /\
    v_bias v' = adam_par lr (v_momBias v') (v_velBias v') (v_bias v)
}.

(** * Without Adam *)
(** The weights of node [k] of layer [j] after the passes [ps], starting from [w]; the same for its bias. *)
Definition sgd_weights (lr : float64) (ps : list pass) (j k : nat) (w : list float64) : list float64 :=
  fold_left (fun w p => match error_of p j k with Some d => accumulate (fun a => fmul lr (fmul d a)) w (inputs_of p j) | None => w end) ps w.
Definition sgd_bias (lr : float64) (ps : list pass) (j k : nat) (b : float64) : float64 :=
  fold_left (fun b p => match error_of p j k with Some d => fadd b (if bool_decide (j = 0%nat) then fadd lr d else fmul lr d) | None => b end) ps b.
(** The layers [ls] are the layers [lvs] with the weights the passes [ps] leave; the biases are still those of [lvs]. *)
Definition sgd_layers (lr : float64) (ps : list pass) (lvs ls : list LayerView) : Prop :=
  Forall2 layer_kept lvs ls /\
  forall j lv lv' k v v', lvs !! j = Some lv -> ls !! j = Some lv' -> lv_nodes lv !! k = Some v -> lv_nodes lv' !! k = Some v' ->
    v_w v' = sgd_weights lr ps j k (v_w v) /\ v_bias v' = v_bias v /\ identity v' = identity v.
(** Each example's pass uses the weights left by the passes before it. *)
Definition sgd_passes (E : env) (batch : Z) (sparsity : list float64) (lr : float64) (lvs : list LayerView)
    (exs : list Example_) (ps : list pass) : Prop :=
  length ps = length exs /\
  forall i ex p, exs !! i = Some ex -> ps !! i = Some p ->
    exists ls, sgd_layers lr (take i ps) lvs ls /\ pass_of E batch ls sparsity ex p.

(** * What was active *)
(** In some pass, node [k] of layer [j] was active and input [q] was among the layer's inputs (whose indexes are
    not negative, or the pass would have failed). *)
Definition touched (ps : list pass) (j k q : nat) : Prop :=
  exists p, p ∈ ps /\ is_Some (error_of p j k) /\ q ∈ map (fun x => Z.to_nat (iv_index x)) (inputs_of p j).
(** In some pass, node [k] of layer [j] was active. *)
Definition active_in (ps : list pass) (j k : nat) : Prop := exists p, p ∈ ps /\ is_Some (error_of p j k).
(** Equal, or zeros of different signs. *)
Definition same_number (x y : float64) : Prop := x = y \/ (exists s s', x = S754_zero s /\ y = S754_zero s').
(** A binary64 number that is neither infinite nor NaN. *)
Definition finite_number (x : float64) : Prop := representable x /\ match x with S754_zero _ | S754_finite _ _ _ => True | _ => False end.

(** * Histories *)
(** The passes of a training call on the layers [lvs]. *)
Definition call_passes (E : env) (batch : Z) (sparsity : list float64) (lr0 : float64) (iter : Z) (lvs : list LayerView)
    (exs : list Example_) (ps : list pass) : Prop :=
  exists lvs1, reshuffled iter lvs lvs1 /\
    if e_UseAdam E then Forall2 (pass_of E batch lvs1 sparsity) exs ps else sgd_passes E batch sparsity (learning_rate E lr0 iter) lvs1 exs ps.
(** What they make of every node. *)
Definition node_result (E : env) (lr : float64) (ps : list pass) (j i : nat) (v v' : NodeView) : Prop :=
  identity v' = identity v /\
  if e_UseAdam E then adam_step lr (weight_gradient ps j i (replicate (length (v_w v)) fzero)) (bias_gradient ps j i fzero) v v'
  else v_w v' = sgd_weights lr ps j i (v_w v) /\ v_bias v' = sgd_bias lr ps j i (v_bias v).
Definition call_result (E : env) (lr : float64) (ps : list pass) (lvs lvs' : list LayerView) : Prop :=
  length lvs' = length lvs /\
  forall j lv lv', lvs !! j = Some lv -> lvs' !! j = Some lv' ->
    lv_type lv' = lv_type lv /\ length (lv_nodes lv') = length (lv_nodes lv) /\
    forall i v v', lv_nodes lv !! i = Some v -> lv_nodes lv' !! i = Some v' -> node_result E lr ps j i v v'.
(** The calls [os] turn [nv] into [nv']; [pss] are the passes of the training calls. *)
Inductive history (E : env) (batch : Z) (sparsity : list float64) (lr0 : float64) (nv : NetView) :
    list net_op -> list (list pass) -> NetView -> Prop :=
  | hist_nil : history E batch sparsity lr0 nv [] [] nv
  | hist_train os pss nv1 exs iter rehash rebuild ps nv2 : history E batch sparsity lr0 nv os pss nv1 ->
      call_passes E batch sparsity lr0 iter (nv_layers nv1) exs ps ->
      call_result E (learning_rate E lr0 iter) ps (nv_layers nv1) (nv_layers nv2) ->
      history E batch sparsity lr0 nv (os ++ [OpTrain exs iter rehash rebuild]) (pss ++ [ps]) nv2
  | hist_predict os pss nv1 exs nv2 : history E batch sparsity lr0 nv os pss nv1 ->
      net_same_but (fun i => 0 <= i < Z.of_nat (length exs)) nv1 nv2 ->
      history E batch sparsity lr0 nv (os ++ [OpPredict exs]) pss nv2.
(** The learning rate of the call, with Adam's correction, is a finite number. *)
Definition rate_ok (E : env) (lr0 : float64) (o : net_op) : Prop := match o with OpTrain _ iter _ _ => finite_number (learning_rate E lr0 iter) | OpPredict _ => True end.
(** No example the call trains on has feature [q]. *)
Definition unseen_in (q : nat) (o : net_op) : Prop :=
  match o with
  | OpTrain exs _ _ _ => Forall (fun ex => Forall (fun p => 0 <= iv_index p /\ iv_index p <> Z.of_nat q) (features ex)) exs
  | OpPredict _ => True
  end.
