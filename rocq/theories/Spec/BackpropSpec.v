(** The effect of back-propagation on one node in closed form: every change is given in terms of
    the values before the call. *)
From Verif.Spec Require Export NodeSpec.

(** Change the elements at the positions [js], and only those. *)
Definition upd_set {A} (js : list Z) (g : Z -> A -> A) (xs : list A) : list A :=
  imap (fun k x => if bool_decide (Z.of_nat k ∈ js) then g (Z.of_nat k) x else x) xs.

(** Activation and weight before the call. *)
Definition act_at (ps : list NodeView) (i j : Z) : float64 :=
  match ps !! Z.to_nat j with
  | Some pv => match v_slots pv !! Z.to_nat i with Some s => slot_act s | None => fzero end
  | None => fzero
  end.
Definition weight_at (v : NodeView) (j : Z) : float64 := default fzero (v_w v !! Z.to_nat j).

(** Add [x] to the delta of input [i], unless its activation is at most zero. *)
Definition add_delta (i : Z) (x : float64) (pv : NodeView) : NodeView :=
  match v_slots pv !! Z.to_nat i with
  | Some s => if fleb (s_act s) fzero then pv
              else v_set_slot pv i (mkSlot (s_active s) (s_act s) (fadd (s_delta s) x))
  | None => pv
  end.

(** BackPropagate of input [i], whose delta is [d], over the previous nodes [js]. *)
Definition prev_after (v : NodeView) (ps : list NodeView) (js : list Z) (i : Z) (d : float64) : list NodeView :=
  upd_set js (fun j => add_delta i (fmul d (weight_at v j))) ps.
Definition cleared : Slot := mkSlot fzero fzero fzero.
Definition node_after_adam (v : NodeView) (ps : list NodeView) (js : list Z) (i : Z) (d : float64) : NodeView :=
  mkView (v_type v) (v_batch v) (v_id v) (v_w v) (v_mom v) (v_vel v)
    (upd_set js (fun j t => fadd t (fmul d (act_at ps i j))) (v_t v))
    (v_bias v) (fadd (v_tBias v) d) (v_momBias v) (v_velBias v) (v_mirrorBias v)
    (<[Z.to_nat i := cleared]> (v_slots v)).
Definition node_after_plain (lr : float64) (v : NodeView) (ps : list NodeView) (js : list Z) (i : Z) (d : float64) : NodeView :=
  mkView (v_type v) (v_batch v) (v_id v)
    (upd_set js (fun j w => fadd w (fmul lr (fmul d (act_at ps i j)))) (v_w v))
    (v_mom v) (v_vel v) (v_t v)
    (v_bias v) (v_tBias v) (v_momBias v) (v_velBias v) (fadd (v_mirrorBias v) (fmul lr d))
    (<[Z.to_nat i := cleared]> (v_slots v)).

(** The call is admissible: the input is active, every listed previous node exists, is active for
    the input, and has a weight (and an accumulator with Adam). *)
Definition active_at (v : NodeView) (i : Z) : Prop := exists s, sget (v_slots v) i = Ok s /\ on s = true.
Definition backprop_ok (adam : bool) (v : NodeView) (ps : list NodeView) (js : list Z) (i : Z) : Prop :=
  active_at v i /\
  forall j, j ∈ js ->
    0 <= j /\ (exists pv, ps !! Z.to_nat j = Some pv /\ active_at pv i) /\
    j < Z.of_nat (length (v_w v)) /\ (adam = true -> j < Z.of_nat (length (v_t v))).
