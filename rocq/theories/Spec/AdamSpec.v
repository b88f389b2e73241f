(** Numbers that are not negative; the second moments and Adam's divisor. *)
From Verif.Spec Require Export ShapeSpec.

(** [x] is not below zero (it may be NaN). *)
Definition not_negative (x : float64) : Prop := fltb x fzero = false.
(** The second moments of a node. *)
Definition second_moments (v : NodeView) : list float64 := v_velBias v :: v_vel v.
(** What Adam divides by. *)
Definition adam_divisor (v : float64) : float64 := fadd (fsqrt v) (dec 1 (10 ^ 8)).
