(** Training that uses every node: what two networks must have in common. *)
From Verif.Spec Require Export DenseSpec BatchSpec.
Local Open Scope Z_scope.

(** The training sparsities (the first half of the list) are all 1. *)
Definition dense_training (num : Z) (sparsity : list float64) : Prop :=
  forall j : nat, Z.of_nat j < num -> exists sp, sparsity !! j = Some sp /\ feqb sp fone = true.
(** The same optimiser and the same mathematical functions.  The hash function, the way nodes are sampled, and the
    hashes of minhash may differ. *)
Definition same_arithmetic (E1 E2 : env) : Prop :=
  e_UseAdam E1 = e_UseAdam E2 /\ e_exp E1 = e_exp E2 /\ e_pow E1 = e_pow E2.
(** The same normal draws from now on.  The other random numbers may differ. *)
Definition same_draws (m1 m2 : mem) : Prop := forall i : nat, m_norm m1 (m_npos m1 + i)%nat = m_norm m2 (m_npos m2 + i)%nat.
(** The examples and the iteration numbers of the training calls of a history; not the predictions in between, nor
    whether a call hashes anew. *)
Definition lessons (os : list net_op) : list (list Example_ * Z) :=
  omap (fun o => match o with OpTrain exs iter _ _ => Some (exs, iter) | OpPredict _ => None end) os.
