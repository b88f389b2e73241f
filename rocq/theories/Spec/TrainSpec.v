(** What a training call computes: the errors, the gradients, and the update of the parameters. *)
From Verif.Spec Require Export InferSpec.

(** * The errors *)
(** The error of the output node [p], whose value is its exponential: the target (1 over the number of
    labels, or 0) minus its share of the sum, over the batch size. *)
Definition output_error (batch : Z) (lab : list Z) (norm : float64) (p : Pair) : float64 :=
  let act := fdiv (iv_value p) (fadd norm (dec 1 (10 ^ 7))) in
  if bool_decide (iv_index p ∈ lab)
  then fsub (fdiv fone (f_of_Z (Z.of_nat (length lab)))) (fdiv act (f_of_Z batch))
  else fdiv (fneg act) (f_of_Z batch).
(** The weight from node [q] of a layer's input to node [k] of the layer. *)
Definition weight_of (vs : list NodeView) (k q : Z) : float64 :=
  default fzero (v ← vs !! Z.to_nat k; v_w v !! Z.to_nat q).
(** The error of the hidden node [p]: nothing if its activation is not positive, otherwise the errors of the
    active nodes of the next layer, weighted and added up in order. *)
Definition hidden_error (next : list NodeView) (active : list (Pair * float64)) (p : Pair) : float64 :=
  if fleb (iv_value p) fzero then fzero
  else fold_left (fun acc '(q, d) => fadd acc (fmul d (weight_of next (iv_index q) (iv_index p)))) active fzero.
(** [ds] are the errors of the active nodes of each layer; [outs] are the features and the layers' outputs. *)
Definition errors (batch : Z) (lvs : list LayerView) (lab : list Z) (outs : list (list Pair)) (ds : list (list float64)) : Prop :=
  length ds = length lvs /\
  forall j out d, outs !! S j = Some out -> ds !! j = Some d ->
    d = match lvs !! S j, outs !! S (S j), ds !! S j with
        | Some lv', Some out', Some d' => map (hidden_error (lv_nodes lv') (zip out' d')) out
        | _, _, _ => map (output_error batch lab (fold_left fadd (map iv_value out) fzero)) out
        end.

(** * The gradients *)
(** Adding [f (value q)] to element [index q], for every [q] in turn. *)
Definition accumulate (f : float64 -> float64) (xs : list float64) (cur : list Pair) : list float64 :=
  fold_left (fun xs q => alter (fun x => fadd x (f (iv_value q))) (Z.to_nat (iv_index q)) xs) cur xs.
(** What a node with error [d] and inputs [cur] learns: with Adam the gradient is accumulated, without it the
    weights change at once (and the bias of the first layer by the rate plus the error). *)
Definition gradient (adam : bool) (lr : float64) (first : bool) (cur : list Pair) (d : float64) (v : NodeView) : NodeView :=
  if adam then
    v_set_biases (v_set_t v (accumulate (fmul d) (v_t v) cur))
      (v_bias v) (fadd (v_tBias v) d) (v_momBias v) (v_velBias v) (v_mirrorBias v)
  else
    v_set_biases (v_set_w v (accumulate (fun a => fmul lr (fmul d a)) (v_w v) cur))
      (v_bias v) (v_tBias v) (v_momBias v) (v_velBias v) (fadd (v_mirrorBias v) (if first then fadd lr d else fmul lr d)).

(** The layer is the same except for its nodes and its normalisation constants. *)
Record layer_kept (lv lv' : LayerView) : Prop := mkKept {
  lk_type : lv_type lv' = lv_type lv; lk_rand : lv_rand lv' = lv_rand lv;
  lk_k : lv_k lv' = lv_k lv; lk_l : lv_l lv' = lv_l lv; lk_prev : lv_prev lv' = lv_prev lv;
  lk_tables : lv_tables lv' = lv_tables lv; lk_hash : lv_hash lv' = lv_hash lv;
  lk_norm : length (lv_norm lv') = length (lv_norm lv);
  lk_nodes : length (lv_nodes lv') = length (lv_nodes lv)
}.

(** Training on the example [ex] turns the layers [lvs] into [lvs']: the forward pass uses the layers as they
    are, then exactly the active nodes learn, each once. *)
Record example_step (E : env) (batch : Z) (sparsity : list float64) (lr : float64) (ex : Example_)
    (lvs lvs' : list LayerView) : Prop := mkStep {
  es_kept : Forall2 layer_kept lvs lvs';
  es_nodes : exists outs ds,
    inference E lvs sparsity 0 (labels ex) (features ex) outs /\ errors batch lvs (labels ex) outs ds /\
    forall j lv lv' cur out d, lvs !! j = Some lv -> lvs' !! j = Some lv' ->
      outs !! j = Some cur -> outs !! S j = Some out -> ds !! j = Some d ->
      NoDup (map iv_index out) /\
      forall k v v', lv_nodes lv !! k = Some v -> lv_nodes lv' !! k = Some v' ->
        identity v' = identity v /\
        (forall a p x, out !! a = Some p -> iv_index p = Z.of_nat k -> d !! a = Some x ->
           learned v' = learned (gradient (e_UseAdam E) lr (bool_decide (j = 0%nat)) cur x v)) /\
        (Z.of_nat k ∉ map iv_index out -> learned v' = learned v)
}.
(** Training on several examples, one after the other. *)
Inductive trains (E : env) (batch : Z) (sparsity : list float64) (lr : float64) :
    list Example_ -> list LayerView -> list LayerView -> Prop :=
  | trains_nil lvs : trains E batch sparsity lr [] lvs lvs
  | trains_snoc exs ex lvs lvs1 lvs2 : trains E batch sparsity lr exs lvs lvs1 ->
      example_step E batch sparsity lr ex lvs1 lvs2 -> trains E batch sparsity lr (exs ++ [ex]) lvs lvs2.

(** * The update *)
(** Adam's moments and step for an accumulated gradient [t]. *)
Definition adam_mom (t m : float64) : float64 := fadd (fmul (dec 9 10) m) (fmul (dec 1 10) t).
Definition adam_vel (t v : float64) : float64 := fadd (fmul (dec 999 1000) v) (fmul (fmul (dec 1 1000) t) t).
Definition adam_par (lr m v x : float64) : float64 := fadd x (fdiv (fmul (fmul fone lr) m) (fadd (fsqrt v) (dec 1 (10 ^ 8)))).
(** The rate of a step: with Adam it is corrected for the bias of the moments after [iter + 1] steps. *)
Definition learning_rate (E : env) (lr : float64) (iter : Z) : float64 :=
  if e_UseAdam E
  then fdiv (fmul lr (fsqrt (fsub fone (e_pow E (dec 999 1000) (fadd (f_of_Z iter) fone)))))
            (fsub fone (e_pow E (dec 9 10) (fadd (f_of_Z iter) fone)))
  else lr.
(** A node after the update: with Adam every parameter has moved by Adam's rule and no gradient is left;
    without it the bias is the one learned and nothing else changes. *)
Record adam_updated (lr : float64) (v v' : NodeView) : Prop := mkAdamUpd {
  au_len : length (v_w v') = length (v_w v) /\ length (v_mom v') = length (v_mom v) /\
           length (v_vel v') = length (v_vel v) /\ length (v_t v') = length (v_t v);
  au_at : forall d t mo ve w, v_t v !! d = Some t -> v_mom v !! d = Some mo -> v_vel v !! d = Some ve -> v_w v !! d = Some w ->
    v_t v' !! d = Some fzero /\ v_mom v' !! d = Some (adam_mom t mo) /\ v_vel v' !! d = Some (adam_vel t ve) /\
    v_w v' !! d = Some (adam_par lr (adam_mom t mo) (adam_vel t ve) w);
  au_bias : v_bias v' = adam_par lr (adam_mom (v_tBias v) (v_momBias v)) (adam_vel (v_tBias v) (v_velBias v)) (v_bias v) /\
    v_momBias v' = adam_mom (v_tBias v) (v_momBias v) /\ v_velBias v' = adam_vel (v_tBias v) (v_velBias v) /\
    v_tBias v' = fzero /\ v_mirrorBias v' = v_mirrorBias v;
  au_rest : identity v' = identity v /\ v_slots v' = v_slots v
}.
Definition updated (adam : bool) (lr : float64) (v v' : NodeView) : Prop :=
  if adam then adam_updated lr v v'
  else v' = v_set_biases v (v_mirrorBias v) (v_tBias v) (v_momBias v) (v_velBias v) (v_mirrorBias v).

(** * The hash tables *)
(** The bucket of each table that a weight vector belongs to, under the layer's hash functions. *)
Definition address (E : env) (lv : LayerView) (w : list float64) (ix : list Z) : Prop :=
  exists hs, weight_codes E (lv_hash lv) w hs /\ lsh_HashesToIndex (e_Hash E) (lv_tables lv) hs = Ok ix.
(** The tables list every node under its current weights: any lookup gives, for every table, the nodes with the
    same bucket there, in order of their ids; if more than 128 share the bucket, the 128 greatest.  A node's own
    address can be looked up, and the node is found in every bucket that is not overfull. *)
Definition findable (E : env) (lv : LayerView) : Prop :=
  exists addrs : list (list Z),
    Forall2 (fun v ix => address E lv (v_w v) ix) (lv_nodes lv) addrs /\
    (forall k ix, addrs !! k = Some ix -> exists rs, lsh_RetrieveRaw (lv_tables lv) ix = Ok rs) /\
    forall ix rs, lsh_RetrieveRaw (lv_tables lv) ix = Ok rs ->
      forall a, 0 <= a < lv_l lv -> exists x ids,
          ix !! Z.to_nat a = Some x /\ rs !! Z.to_nat a = Some ids /\
          let share := filter (fun k' => (addrs !! Z.to_nat k') ≫= (fun ix' => ix' !! Z.to_nat a) = Some x)
                         (seqZ 0 (Z.of_nat (length (lv_nodes lv)))) in
          (length share <= 128 -> ids = share /\ forall k, addrs !! k = Some ix -> Z.of_nat k ∈ ids)%nat /\
          ids ≡ₚ drop (length share - 128) share.
