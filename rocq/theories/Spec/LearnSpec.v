(** The vocabulary of the network properties: what stays the same, the predicted class, the Adam rule. *)
From Verif.Spec Require Export NetSpec.

(** What a node has learned, and what it is. *)
Definition learned (v : NodeView) : list float64 * list float64 * list float64 * list float64 * list float64 :=
  (v_w v, v_mom v, v_vel v, v_t v, [v_bias v; v_tBias v; v_momBias v; v_velBias v; v_mirrorBias v]).
Definition identity (v : NodeView) : NodeType * Z * Z := (v_type v, v_batch v, v_id v).

(** At most the slots of the inputs in [I] differ. *)
Record same_but (I : Z -> Prop) (v v' : NodeView) : Prop := mkSameBut {
  sb_learned : learned v' = learned v;
  sb_identity : identity v' = identity v;
  sb_len : length (v_slots v') = length (v_slots v);
  sb_slots : forall k, ~ I (Z.of_nat k) -> v_slots v' !! k = v_slots v !! k
}.
(** The same for a layer: also the normalisation constants of the inputs in [I] may differ. *)
Record layer_same_but (I : Z -> Prop) (lv lv' : LayerView) : Prop := mkLayerSame {
  ls_type : lv_type lv' = lv_type lv; ls_rand : lv_rand lv' = lv_rand lv;
  ls_k : lv_k lv' = lv_k lv; ls_l : lv_l lv' = lv_l lv; ls_prev : lv_prev lv' = lv_prev lv;
  ls_tables : lv_tables lv' = lv_tables lv; ls_hash : lv_hash lv' = lv_hash lv;
  ls_norm_len : length (lv_norm lv') = length (lv_norm lv);
  ls_norm : forall k, ~ I (Z.of_nat k) -> lv_norm lv' !! k = lv_norm lv !! k;
  ls_nodes : Forall2 (same_but I) (lv_nodes lv) (lv_nodes lv')
}.
(** The same for a network; the state of the random source may differ. *)
Record net_same_but (I : Z -> Prop) (nv nv' : NetView) : Prop := mkNetSame {
  ns_seeds : nv_seeds nv' = nv_seeds nv;
  ns_layers : Forall2 (layer_same_but I) (nv_layers nv) (nv_layers nv')
}.
