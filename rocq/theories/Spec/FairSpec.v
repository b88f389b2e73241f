(** The calls to which C89 and C90 apply in a network that was made by New and used. *)
From Verif.Spec Require Export FillSpec DrawSpec WorkSpec SafeSpec.
Local Open Scope Z_scope.

(** [cur] is an input for layer [j], which has [P] inputs: at most [P] pairs with indices below [P]; nothing is active yet. *)
Definition slices_for (P : Z) (anpl : list (list Pair)) (j : nat) (cur : list Pair) : Prop :=
  anpl !! j = Some cur /\ anpl !! S j = Some [] /\ (forall p, p ∈ cur -> 0 <= iv_index p < P) /\ Z.of_nat (length cur) <= P.
(** Labels for a layer with [N] nodes. *)
Definition labels_for (N : Z) (label : list Z) : Prop := NoDup label /\ forall x, x ∈ label -> 0 <= x < N.
