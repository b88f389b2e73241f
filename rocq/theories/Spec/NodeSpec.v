(** What can be read through a node pointer, and the reference effect of the node operations on it.
    Nothing here mentions pointers except [rep], which relates the two. *)
From Verif.Model Require Export Node.

(** The decimal fraction a/b as a binary64 number. *)
Definition dec (a b : Z) : float64 := fdiv (f_of_Z a) (f_of_Z b).

(** The state of one input slot of a node, and the content of a node. *)
Record Slot := mkSlot { s_active : float64; s_act : float64; s_delta : float64 }.
Record NodeView := mkView {
  v_type : NodeType; v_batch : Z; v_id : Z;
  v_w : list float64;       (* weights *)
  v_mom : list float64; v_vel : list float64; v_t : list float64;   (* Adam moments, gradient accumulator *)
  v_bias : float64; v_tBias : float64; v_momBias : float64; v_velBias : float64; v_mirrorBias : float64;
  v_slots : list Slot
}.

(** The elements of a slice in a memory, [None] if the slice does not lie within its array. *)
Definition felems (m : mem) (s : fslice) : option (list float64) :=
  if fs_len s <=? 0 then Some []
  else a ← m_f m !! fs_loc s;
       if (0 <=? fs_off s) && (fs_off s + fs_len s <=? Z.of_nat (length a)) then Some (fslice_read a s) else None.
Definition telems (m : mem) (s : tslice) : option (list nat) :=
  if ts_len s <=? 0 then Some []
  else a ← m_ta m !! ts_loc s;
       if (0 <=? ts_off s) && (ts_off s + ts_len s <=? Z.of_nat (length a))
       then Some (take (Z.to_nat (ts_len s)) (drop (Z.to_nat (ts_off s)) a)) else None.

(** The memory objects a node consists of. *)
Record Lay := mkLay {
  ly_base : nat; ly_train : tslice; ly_trs : list nat;
  ly_w : fslice; ly_mom : fslice; ly_vel : fslice; ly_t : fslice
}.
Definition ly_slices (ly : Lay) : list fslice := [ly_w ly; ly_mom ly; ly_vel ly; ly_t ly].

(** Pointer [n] in memory [m] is a node all of whose parts carry cowId [c]; it is made of the
    objects [ly] and holds [v].  (Weights and mirror weights are one slice, node.go:75-78, 214-217.) *)
Record rep (m : mem) (c : Z) (n : nat) (ly : Lay) (v : NodeView) : Prop := mkRep {
  rep_node : m_node m !! n = Some (mkNode c (ly_base ly) (ly_train ly));
  rep_base : m_base m !! ly_base ly =
    Some (mkBase c (v_type v) (v_batch v) (v_id v) (ly_w ly) (ly_w ly) (ly_mom ly) (ly_vel ly) (ly_t ly)
            (v_bias v) (v_tBias v) (v_momBias v) (v_velBias v) (v_mirrorBias v));
  rep_trs : telems m (ly_train ly) = Some (ly_trs ly);
  rep_slots : Forall2 (fun l s => m_tr m !! l = Some (mkTrain c (s_delta s) (s_act s) (s_active s)))
                (ly_trs ly) (v_slots v);
  rep_w : felems m (ly_w ly) = Some (v_w v);
  rep_mom : felems m (ly_mom ly) = Some (v_mom v);
  rep_vel : felems m (ly_vel ly) = Some (v_vel v);
  rep_t : felems m (ly_t ly) = Some (v_t v)
}.

(** Two slices share no element. *)
Definition sdisj (a b : fslice) : Prop :=
  fs_len a <= 0 \/ fs_len b <= 0 \/ fs_loc a <> fs_loc b \/
  fs_off a + fs_len a <= fs_off b \/ fs_off b + fs_len b <= fs_off a.
(** The parts of a node do not overlap. *)
Definition ly_ok (ly : Lay) : Prop :=
  NoDup (ly_trs ly) /\
  sdisj (ly_w ly) (ly_mom ly) /\ sdisj (ly_w ly) (ly_vel ly) /\ sdisj (ly_w ly) (ly_t ly) /\
  sdisj (ly_mom ly) (ly_vel ly) /\ sdisj (ly_mom ly) (ly_t ly) /\ sdisj (ly_vel ly) (ly_t ly).
(** Two nodes share no mutable part. *)
Definition apart (a b : Lay) : Prop :=
  ly_base a <> ly_base b /\ (forall l, l ∈ ly_trs a -> l ∉ ly_trs b) /\
  (forall s s', s ∈ ly_slices a -> s' ∈ ly_slices b -> sdisj s s').

(** The nodes of a layer, by position: pointers, layouts and contents. *)
Record reps (m : mem) (c : Z) (ns : list nat) (lys : list Lay) (vs : list NodeView) : Prop := mkReps {
  reps_l1 : length lys = length ns;
  reps_l2 : length vs = length ns;
  reps_at : forall j n ly v, ns !! j = Some n -> lys !! j = Some ly -> vs !! j = Some v -> rep m c n ly v
}.
Definition all_apart (lys : list Lay) : Prop :=
  forall i j a b, i <> j -> lys !! i = Some a -> lys !! j = Some b -> apart a b.

(** The situation of a node in a network: it and the nodes of the previous layer are owned by [c]
    and share no part. *)
Record situated (m : mem) (c : Z) (n : nat) (ly : Lay) (v : NodeView) (pa : nat) (ns : list nat)
    (lys : list Lay) (ps : list NodeView) : Prop := mkSit {
  sit_rep : rep m c n ly v;
  sit_ok : ly_ok ly;
  sit_na : m_na m !! pa = Some ns;
  sit_reps : reps m c ns lys ps;
  sit_apart : all_apart lys;
  sit_oks : Forall ly_ok lys;
  sit_sep : Forall (apart ly) lys
}.

(** Field updates of views. *)
Definition v_set_slot (v : NodeView) (i : Z) (s : Slot) : NodeView :=
  mkView (v_type v) (v_batch v) (v_id v) (v_w v) (v_mom v) (v_vel v) (v_t v) (v_bias v) (v_tBias v)
    (v_momBias v) (v_velBias v) (v_mirrorBias v) (<[Z.to_nat i := s]> (v_slots v)).
Definition v_set_w (v : NodeView) (w : list float64) : NodeView :=
  mkView (v_type v) (v_batch v) (v_id v) w (v_mom v) (v_vel v) (v_t v) (v_bias v) (v_tBias v)
    (v_momBias v) (v_velBias v) (v_mirrorBias v) (v_slots v).
Definition v_set_mom (v : NodeView) (w : list float64) : NodeView :=
  mkView (v_type v) (v_batch v) (v_id v) (v_w v) w (v_vel v) (v_t v) (v_bias v) (v_tBias v)
    (v_momBias v) (v_velBias v) (v_mirrorBias v) (v_slots v).
Definition v_set_vel (v : NodeView) (w : list float64) : NodeView :=
  mkView (v_type v) (v_batch v) (v_id v) (v_w v) (v_mom v) w (v_t v) (v_bias v) (v_tBias v)
    (v_momBias v) (v_velBias v) (v_mirrorBias v) (v_slots v).
Definition v_set_t (v : NodeView) (w : list float64) : NodeView :=
  mkView (v_type v) (v_batch v) (v_id v) (v_w v) (v_mom v) (v_vel v) w (v_bias v) (v_tBias v)
    (v_momBias v) (v_velBias v) (v_mirrorBias v) (v_slots v).
Definition v_set_biases (v : NodeView) (b tb mb vb rb : float64) : NodeView :=
  mkView (v_type v) (v_batch v) (v_id v) (v_w v) (v_mom v) (v_vel v) (v_t v) b tb mb vb rb (v_slots v).

(** The weighted sum of the inputs, from left to right, plus the bias. *)
Definition weighted_sum (w : list float64) (data : list Pair) : res float64 :=
  foldM (fun s p => x ← sget w (iv_index p); Ok (fadd s (fmul x (iv_value p)))) fzero data.

(** An input slot is in use when its flag is 1. *)
Definition on (s : Slot) : bool := feqb (s_active s) fone.

(** Reference effect of GetActivation. *)
Definition ref_activate (v : NodeView) (data : list Pair) (i : Z) : res (float64 * NodeView) :=
  if v_batch v <? i then Panic (PMsg 2)
  else
    s ← sget (v_slots v) i;
    sum ← weighted_sum (v_w v) data;
    let a := fadd sum (v_bias v) in
    match v_type v with
    | ReLU => if fltb a fzero then Ok (fzero, v_set_slot v i (mkSlot fone fzero fzero))
              else Ok (a, v_set_slot v i (mkSlot fone a (s_delta s)))
    | Softmax => Ok (a, v_set_slot v i (mkSlot fone a (s_delta s)))
    | TypeOther => Panic (PMsg 3)
    end.

(** Reference effect of SetlastActivation. *)
Definition ref_set_act (v : NodeView) (i : Z) (a : float64) : res NodeView :=
  s ← sget (v_slots v) i;
  Ok (v_set_slot v i (mkSlot (s_active s) a (s_delta s))).

(** Reference effect of IncrementDelta. *)
Definition ref_incr (v : NodeView) (i : Z) (d : float64) : res NodeView :=
  s ← sget (v_slots v) i;
  if negb (on s) then Panic (PMsg 1)
  else if fleb (s_act s) fzero then Ok v
  else Ok (v_set_slot v i (mkSlot (s_active s) (s_act s) (fadd (s_delta s) d))).

(** Reference effect of ComputeExtaStatsForSoftMax. *)
Definition ref_softmax (v : NodeView) (norm : float64) (i : Z) (labels : list Z) : res NodeView :=
  s ← sget (v_slots v) i;
  if negb (on s) then Panic (PMsg 1)
  else
    let act := fdiv (s_act s) (fadd norm (dec 1 (10 ^ 7))) in
    let B := f_of_Z (v_batch v) in
    let delta := if bool_decide (v_id v ∈ labels)
                 then fsub (fdiv fone (f_of_Z (Z.of_nat (length labels)))) (fdiv act B)
                 else fdiv (fneg act) B in
    Ok (v_set_slot v i (mkSlot (s_active s) act delta)).

(** x[i] += d *)
Definition add_at (xs : list float64) (i : Z) (d : float64) : res (list float64) :=
  x ← sget xs i; sset xs i (fadd x d).

(** Adding a gradient: to the accumulator with Adam, directly to the weight otherwise. *)
Definition ref_grad (adam : bool) (lr : float64) (v : NodeView) (i : Z) (g : float64) : res NodeView :=
  if adam then t ← add_at (v_t v) i g; Ok (v_set_t v t)
  else w ← add_at (v_w v) i (fmul lr g); Ok (v_set_w v w).

(** The last step of back-propagation: bias gradient and clearing of the slot. *)
Definition ref_finish (adam : bool) (step : float64) (v : NodeView) (i : Z) (d : float64) : NodeView :=
  v_set_slot
    (if adam then v_set_biases v (v_bias v) (fadd (v_tBias v) d) (v_momBias v) (v_velBias v) (v_mirrorBias v)
     else v_set_biases v (v_bias v) (v_tBias v) (v_momBias v) (v_velBias v) (fadd (v_mirrorBias v) step))
    i (mkSlot fzero fzero fzero).

(** What a slot's last activation reads as. *)
Definition slot_act (s : Slot) : float64 := if on s then s_act s else fzero.

(** Reference effect of BackPropagate on the node [v] and the previous layer [ps]. *)
Definition ref_backprop_step (adam : bool) (lr : float64) (i : Z) (st : NodeView * list NodeView) (p : Pair)
    : res (NodeView * list NodeView) :=
  let '(v, ps) := st in
  let j := iv_index p in
  pv ← sget ps j;
  s ← sget (v_slots v) i;
  x ← sget (v_w v) j;
  pv' ← ref_incr pv i (fmul (s_delta s) x);
  s' ← sget (v_slots pv') i;
  v' ← ref_grad adam lr v j (fmul (s_delta s) (slot_act s'));
  Ok (v', <[Z.to_nat j := pv']> ps).
Definition ref_backprop (adam : bool) (lr : float64) (v : NodeView) (ps : list NodeView) (pairs : list Pair) (i : Z)
    : res (NodeView * list NodeView) :=
  s ← sget (v_slots v) i;
  if negb (on s) then Panic (PMsg 1)
  else
    '(v', ps') ← foldM (ref_backprop_step adam lr i) (v, ps) pairs;
    Ok (ref_finish adam (fmul lr (s_delta s)) v' i (s_delta s), ps').

(** Reference effect of BackPropagateFirstLayer; its bias step is [lr + delta]. *)
Definition ref_backprop_first (adam : bool) (lr : float64) (v : NodeView) (pairs : list Pair) (i : Z) : res NodeView :=
  s ← sget (v_slots v) i;
  if negb (on s) then Panic (PMsg 1)
  else
    v' ← foldM (fun v p => ref_grad adam lr v (iv_index p) (fmul (s_delta s) (iv_value p))) v pairs;
    Ok (ref_finish adam (fadd lr (s_delta s)) v' i (s_delta s)).

(** Every object that exists in [m] is the same in [m']: nothing reachable before has changed. *)
Definition extends (m m' : mem) : Prop :=
  m_f m `prefix_of` m_f m' /\ m_tr m `prefix_of` m_tr m' /\ m_ta m `prefix_of` m_ta m' /\
  m_base m `prefix_of` m_base m' /\ m_node m `prefix_of` m_node m' /\ m_na m `prefix_of` m_na m' /\
  m_ia m `prefix_of` m_ia m' /\ m_lsh m `prefix_of` m_lsh m' /\ m_layer m `prefix_of` m_layer m' /\
  m_la m `prefix_of` m_la m'.
