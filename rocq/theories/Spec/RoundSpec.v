(** How far binary64 results may be from the exact ones. *)
From Verif.Spec Require Import BatchSpec SrpSpec.
From Coq Require Import Reals.
From Flocq Require Import Core BinarySingleNaN.
Local Open Scope Z_scope.

(** The real number a finite binary64 number stands for. *)
Definition val (x : float64) : R := SF2R radix2 x.
(** Half the distance from 1 to the next number, and the least positive number. *)
Definition u_round : R := (/ 2 ^ 53)%R.
Definition eta_round : R := (/ 2 ^ 1074)%R.
(** The usual bound on [k] roundings in a row: [k u / (1 - k u)]. *)
Definition gamma (k : nat) : R := (INR k * u_round / (1 - INR k * u_round))%R.
Definition sumR (xs : list R) : R := fold_right Rplus 0%R xs.

(** The weight of the input of a pair. *)
Definition weight_for (w : list float64) (p : Pair) : float64 := default fzero (w !! Z.to_nat (iv_index p)).
(** The exact weighted sum plus the bias; the same of the absolute values. *)
Definition exact_sum (w : list float64) (b : float64) (data : list Pair) : R :=
  (sumR (map (fun p => val (weight_for w p) * val (iv_value p)) data) + val b)%R.
Definition magnitude (w : list float64) (b : float64) (data : list Pair) : R :=
  (sumR (map (fun p => Rabs (val (weight_for w p) * val (iv_value p))) data) + Rabs (val b))%R.
(** What the node's type makes of the sum. *)
Definition activation_of (ty : NodeType) (x : R) : R := match ty with ReLU => Rmax 0 x | _ => x end.

(** The exact signed sum of the sampled features, and the sum of their absolute values. *)
Definition exact_signed (feats : list (Z * bool)) (vec : list float64) : R :=
  sumR (map (fun '(f, plus) => let x := val (default fzero (vec !! Z.to_nat f)) in if plus : bool then x else (- x)%R) feats).
Definition sampled_magnitude (feats : list (Z * bool)) (vec : list float64) : R :=
  sumR (map (fun '(f, _) => Rabs (val (default fzero (vec !! Z.to_nat f)))) feats).
