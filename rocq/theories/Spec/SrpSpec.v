(** Independent vocabulary for the sparse random projections. *)
From Verif.Model Require Import IndexValue.
From stdpp Require Import sorting.
Local Open Scope Z_scope.

(** The signed sum of the sampled features of [vec]: feature f is added when its flag is true and
    subtracted otherwise, from left to right, in float64. *)
Definition signed_sum (feats : list (Z * bool)) (vec : list float64) : float64 :=
  fold_left (fun s '(f, plus) =>
    match vec !! Z.to_nat f with
    | Some v => if plus : bool then fadd s v else fsub s v
    | None => s
    end) feats fzero.

(** Strictly increasing. *)
Definition increasing (l : list Z) : Prop := StronglySorted Z.lt l.

Definition is_zero (x : float64) : bool := match x with S754_zero _ => true | _ => false end.
