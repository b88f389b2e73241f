(** When two inputs differ only in ways a locality-sensitive hash should ignore. *)
From Verif.Spec Require Import BatchSpec RoundSpec.
From Verif.Model Require Import IndexValue.
From Coq Require Import Reals.
Local Open Scope Z_scope.

(** Two vectors whose coordinates compare in the same way. *)
Definition same_order (xs ys : list float64) : Prop :=
  length xs = length ys /\
  forall a b x y x' y', xs !! a = Some x -> xs !! b = Some y -> ys !! a = Some x' -> ys !! b = Some y' ->
    fltb x y = fltb x' y'.

(** The coordinates above -2^63, the value the maxima start from, are the same in both. *)
Definition same_eligible (xs ys : list float64) : Prop :=
  forall a x y, xs !! a = Some x -> ys !! a = Some y -> fltb (f_of_Z (- 2^63)) x = fltb (f_of_Z (- 2^63)) y.

(** [ys] is exactly [c] times [xs]; all values are finite. *)
Definition scaled_by (c : R) (xs ys : list float64) : Prop :=
  Forall2 (fun x y => finite_number x /\ finite_number y /\ val y = (c * val x)%R) xs ys.
