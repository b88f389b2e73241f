(** What a network in memory contains, layer by layer and node by node, for a network all of whose
    parts carry one cowId. *)
From Verif.Spec Require Export NodeSpec.
From Verif.Model Require Export Network.

(** The content of a layer. [lv_norm] are the normalisation constants (none for a ReLU layer),
    [lv_rand] is the fallback order, [lv_hash] are the hash functions. *)
Record LayerView := mkLV {
  lv_type : NodeType; lv_nodes : list NodeView; lv_rand : list Z; lv_norm : list float64;
  lv_k : Z; lv_l : Z; lv_prev : Z; lv_tables : LSH; lv_hash : hashers
}.
(** The content of a network, with the state of the random sources it uses. *)
Record NetView := mkNV { nv_layers : list LayerView; nv_rng : rng; nv_seeds : nat }.

Definition lv_set_nodes (lv : LayerView) (vs : list NodeView) : LayerView :=
  mkLV (lv_type lv) vs (lv_rand lv) (lv_norm lv) (lv_k lv) (lv_l lv) (lv_prev lv) (lv_tables lv) (lv_hash lv).
Definition lv_set_rand (lv : LayerView) (r : list Z) : LayerView :=
  mkLV (lv_type lv) (lv_nodes lv) r (lv_norm lv) (lv_k lv) (lv_l lv) (lv_prev lv) (lv_tables lv) (lv_hash lv).
Definition lv_set_norm (lv : LayerView) (xs : list float64) : LayerView :=
  mkLV (lv_type lv) (lv_nodes lv) (lv_rand lv) xs (lv_k lv) (lv_l lv) (lv_prev lv) (lv_tables lv) (lv_hash lv).
Definition lv_set_tables (lv : LayerView) (t : LSH) : LayerView :=
  mkLV (lv_type lv) (lv_nodes lv) (lv_rand lv) (lv_norm lv) (lv_k lv) (lv_l lv) (lv_prev lv) t (lv_hash lv).
Definition lv_set_hash (lv : LayerView) (h : hashers) : LayerView :=
  mkLV (lv_type lv) (lv_nodes lv) (lv_rand lv) (lv_norm lv) (lv_k lv) (lv_l lv) (lv_prev lv) (lv_tables lv) h.
Definition nv_set (nv : NetView) (j : nat) (lv : LayerView) : NetView :=
  mkNV (<[j := lv]> (nv_layers nv)) (nv_rng nv) (nv_seeds nv).
Definition nv_set_rng (nv : NetView) (g : rng) : NetView := mkNV (nv_layers nv) g (nv_seeds nv).

(** The memory objects a layer consists of. *)
Record LayerLay := mkLL {
  ll_ptr : nat; ll_na : nat; ll_rand : nat; ll_norm : option nat; ll_tables : nat;
  ll_ns : list nat; ll_lys : list Lay
}.

Definition layer_rec (c : Z) (ll : LayerLay) (lv : LayerView) : Layer :=
  mkLayer c (lv_type lv) (ll_na ll) (ll_rand ll) (ll_norm ll) (lv_k lv) (lv_l lv) (lv_prev lv) (ll_tables ll)
    (hs_wta (lv_hash lv)) (hs_min (lv_hash lv)) (hs_srp (lv_hash lv)) (hs_dwta (lv_hash lv)) (hs_binIds (lv_hash lv)).

Record layer_rep (m : mem) (c : Z) (ll : LayerLay) (lv : LayerView) : Prop := mkLayerRep {
  lr_layer : m_layer m !! ll_ptr ll = Some (layer_rec c ll lv);
  lr_na : m_na m !! ll_na ll = Some (ll_ns ll);
  lr_rand : m_ia m !! ll_rand ll = Some (lv_rand lv);
  lr_norm : match ll_norm ll with Some a => m_f m !! a = Some (lv_norm lv) | None => lv_norm lv = [] end;
  lr_tables : m_lsh m !! ll_tables ll = Some (lv_tables lv);
  lr_nodes : reps m c (ll_ns ll) (ll_lys ll) (lv_nodes lv)
}.

(** The network stored at the layer array [arr] consists of the objects [lls] and contains [nv]. *)
Record net_rep (m : mem) (c : Z) (arr : nat) (lls : list LayerLay) (nv : NetView) : Prop := mkNetRep {
  nr_arr : m_la m !! arr = Some (map ll_ptr lls);
  nr_len : length lls = length (nv_layers nv);
  nr_at : forall j ll lv, lls !! j = Some ll -> nv_layers nv !! j = Some lv -> layer_rep m c ll lv;
  nr_rng : m_rng m = nv_rng nv;
  nr_seeds : m_seeds m = nv_seeds nv
}.

(** No two parts of the network overlap. *)
Record lays_ok (lls : list LayerLay) : Prop := mkLaysOk {
  lo_ptr : NoDup (map ll_ptr lls);
  lo_rand : NoDup (map ll_rand lls);
  lo_tables : NoDup (map ll_tables lls);
  lo_norm : forall j j' ll ll' a, lls !! j = Some ll -> lls !! j' = Some ll' ->
    ll_norm ll = Some a -> ll_norm ll' = Some a -> j = j';
  lo_ok : forall j ll, lls !! j = Some ll -> Forall ly_ok (ll_lys ll);
  lo_apart : forall j j' ll ll' i i' ly ly', lls !! j = Some ll -> lls !! j' = Some ll' ->
    ll_lys ll !! i = Some ly -> ll_lys ll' !! i' = Some ly' -> (j, i) <> (j', i') -> apart ly ly';
  lo_slices : forall j j' ll ll' a ly s, lls !! j = Some ll -> lls !! j' = Some ll' ->
    ll_norm ll = Some a -> ly ∈ ll_lys ll' -> s ∈ ly_slices ly -> fs_len s <= 0 \/ fs_loc s <> a
}.

(** With minhash every node has at least as many weights as the hash function reads. *)
Definition spare_ok (E : env) (lls : list LayerLay) : Prop := e_Hash E = DensifiedMinhashFunction ->
  forall ll ly, ll ∈ lls -> ly ∈ ll_lys ll -> 30 <= fs_len (ly_w ly).

(** The network [n] in memory [m] contains [nv]: every part of it carries the cowId [c] and no two
    parts overlap. *)
Definition live (E : env) (m : mem) (c : Z) (n : Network) (nv : NetView) : Prop :=
  nw_cowId n = c /\ nw_num n = Z.of_nat (length (nv_layers nv)) /\
  exists lls, net_rep m c (nw_layers n) lls nv /\ lays_ok lls /\ spare_ok E lls.

(** The calls made on a network, and a network with a history: it was made by New with non-overflowing
    dimensions and random weights, and then used with the same cowId. *)
Inductive net_op := OpTrain (exs : list Example_) (iter : Z) (rehash rebuild : bool) | OpPredict (exs : list Example_).
Definition call_op (E : env) (c : Z) (n : Network) (o : net_op) : M Network :=
  match o with
  | OpTrain exs iter rehash rebuild => '(_, n) ← network_ProcessInput E c n exs iter rehash rebuild; mret n
  | OpPredict exs => '(_, n) ← network_PredictClass E c n exs; mret n
  end.
Definition call_ops (E : env) (c : Z) (n : Network) (os : list net_op) : M Network := mfold (call_op E c) n os.
