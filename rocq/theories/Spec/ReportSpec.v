(** What the accuracy lines of the program should say when predictions use every node. *)
From Verif.Spec Require Export DenseSpec AccuracySpec ProgramSpec.
Local Open Scope Z_scope.

(** How many of the examples a network with these parameters classifies correctly: the class computed from the
    parameters and the features alone is one of the labels. *)
Definition correct_of (exp : float64 -> float64) (ps : parameters) (exs : list Example_) : Z :=
  hits exs (map (fun ex => dense_class exp ps (features ex)) exs).
(** The configuration asks for predictions with every node: the second half of its sparsities are all 1. *)
Definition dense_settings (cfg : Configuration) : Prop :=
  forall j : nat, Z.of_nat j < c_NumLayer cfg ->
    exists sp, c_Sparsity cfg !! (Z.to_nat (c_NumLayer cfg) + j)%nat = Some sp /\ feqb sp fone = true.
