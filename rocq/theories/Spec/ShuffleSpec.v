(** What a fair choice among all the orders of a list is. *)
From Verif.Model Require Export Base.
Local Open Scope Z_scope.

(** A choice of one number below [n], then one below [n-1], and so on down to one below 2: there are
    n * (n-1) * ... * 2 of them. *)
Definition choices (n : nat) (ds : list Z) : Prop :=
  length ds = Nat.pred n /\ forall k d, ds !! k = Some d -> 0 <= d < Z.of_nat (n - k).
(** The random source, read from its present position, makes these choices. *)
Definition makes (g : rng) (n : nat) (ds : list Z) : Prop :=
  forall k d, ds !! k = Some d -> rstream g (rpos g + k) mod Z.of_nat (n - k) = d.
