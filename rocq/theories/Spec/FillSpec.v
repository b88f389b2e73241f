(** Which nodes LayerMode4 adds at random: counting over the fallback orders of the layer. *)
From Verif.Spec Require Export LayerSpec BiasSpec.
Local Open Scope Z_scope.

(** All the orders of the numbers below [n], each of them once. *)
Definition every_order (n : Z) (os : list (list Z)) : Prop := NoDup os /\ forall o, o ∈ os <-> o ≡ₚ seqZ 0 n.
(** The memory [m], except that the fallback order of the layer [la] is [o]. *)
Definition with_order (m : mem) (la : Layer) (o : list Z) : mem := upd_ia (fun xs => <[l_rand la := o]> xs) m.
(** The nodes that are active after a query although they are not among [cand]; nothing if the query panics. *)
Definition added (cand : list Z) (li : Z) (r : res ((Z * list (list Pair) * nat) * mem)) : option (list Z) :=
  match r with
  | Ok ((_, anpl, _), _) => Some (filter (fun j => j ∉ cand) (active_of anpl li))
  | Panic _ => None
  end.
(** The nodes of a layer of [n] nodes that are not candidates, and how many of them are needed to make 1000. *)
Definition others (n : Z) (cand : list Z) : list Z := filter (fun j => j ∉ cand) (seqZ 0 n).
Definition missing (n : Z) (cand : list Z) : nat := Nat.min (Z.to_nat (1000 - distinct cand)) (length (others n cand)).
