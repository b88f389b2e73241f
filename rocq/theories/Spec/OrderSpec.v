(** Examples that differ only in the order in which their labels are listed (C76), and networks that differ only in
    their copy-on-write id (C75). *)
From Verif.Model Require Import Network.
Local Open Scope Z_scope.

Definition same_example (a b : Example_) : Prop := features a = features b /\ labels a ≡ₚ labels b.

(** All layers are fully active. *)
Definition fully_dense (n : Network) : Prop := Forall (fun sp => feqb sp fone = true) (nw_sparsity n).

(** Equal but for the id. *)
Definition same_network (a b : Network) : Prop :=
  nw_layers a = nw_layers b /\ nw_lr a = nw_lr b /\ nw_num a = nw_num b /\ nw_sparsity a = nw_sparsity b.
