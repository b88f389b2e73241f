(** Bounds on the numbers of a network along a training with Adam. *)
From Verif.Spec Require Export RangeSpec RoundSpec.
From Coq Require Import Reals.
Local Open Scope Z_scope.

(** [x] is finite and at most [b] in absolute value. *)
Definition at_most (b : R) (x : float64) : Prop := finite_number x /\ (Rabs (val x) <= b)%R.

(** What is assumed of Exp: for a finite argument that is not positive it is a number between 0 and 1. *)
Definition exp_ok (E : env) : Prop :=
  forall x, finite_number x -> fltb fzero x = false -> finite_number (e_exp E x) /\ (0 <= val (e_exp E x) <= 1)%R.

(** A call trains on at most [examples] examples of at most [width] features, none above [X] in absolute value, with a
    (corrected) learning rate of at most 1 that is not absurdly small. *)
Definition call_within (E : env) (lr0 : float64) (width examples : nat) (X : R) (o : net_op) : Prop :=
  match o with
  | OpTrain exs iter _ _ =>
      (length exs <= examples)%nat /\
      Forall (fun ex => (length (features ex) <= width)%nat /\ Forall (fun p => at_most X (iv_value p)) (features ex)) exs /\
      at_most 1 (learning_rate E lr0 iter) /\ (/ 2 ^ 1000 <= val (learning_rate E lr0 iter))%R
  | OpPredict _ => True
  end.
(** What the weights and biases stay below in [calls] training calls if they start below [w0]. *)
Definition weight_bound (w0 : R) (calls : nat) : R := (2 * (1 + w0 + 8 * INR calls))%R.
(** By how much values may grow from one layer to the next, forwards and backwards. *)
Definition growth (width : nat) (w0 : R) (calls : nat) : R := (4 * INR width * weight_bound w0 calls)%R.

(** All parameters of a node are at most [b]; its moments are finite. *)
Definition node_within (b : R) (v : NodeView) : Prop :=
  Forall (at_most b) (v_w v) /\ at_most b (v_bias v) /\
  Forall finite_number (v_mom v) /\ Forall finite_number (v_vel v) /\ finite_number (v_momBias v) /\ finite_number (v_velBias v).
(** All outputs and errors of a pass are finite. *)
Definition pass_finite (p : pass) : Prop :=
  Forall (Forall (fun q => finite_number (iv_value q))) p.1 /\ Forall (Forall finite_number) p.2.

(** What bounds a training: the first draws, the sizes of the layers, the calls, and the product of it all. *)
Record training_within (E : env) (num : Z) (sizes : list Z) (lr0 : float64) (m : mem) (os : list net_op)
    (width examples calls : nat) (w0 X : R) : Prop := mkTrainingWithin {
  tw_w0 : (1 <= w0)%R;
  tw_norm : forall i, at_most w0 (m_norm m i);
  tw_width : forall j size, Z.of_nat j < num -> sizes !! j = Some size -> size <= Z.of_nat width;
  tw_X : (1 <= X)%R;
  tw_width1 : (1 <= width)%nat;
  tw_examples1 : (1 <= examples)%nat;
  tw_calls : Forall (call_within E lr0 width examples X) os;
  tw_count : (length (trained_examples os) <= calls)%nat;
  tw_batch : Z.of_nat (width * examples) <= 2 ^ 50;
  tw_long : Z.of_nat calls <= 2 ^ 50;
  tw_product : (4 * INR examples * INR width * X * growth width w0 calls ^ Z.to_nat num <= 2 ^ 500)%R
}.
(** [w'] differs from [w] by at most 8 learning rates and the rounding of one addition. *)
Definition moved_by (lr w w' : float64) : Prop := (Rabs (val w' - val w) <= 8 * val lr + u_round * Rabs (val w))%R.
