(** Which nodes LayerMode2 adds at random: counting over the draws of the random source. *)
From Verif.Spec Require Export LayerSpec BiasSpec FillSpec.
Local Open Scope Z_scope.

(** All the sequences of [k] numbers below [n]. *)
Fixpoint all_draws (n : Z) (k : nat) : list (list Z) :=
  match k with
  | O => [[]]
  | S k' => flat_map (fun d => map (cons d) (all_draws n k')) (seqZ 0 n)
  end.
(** The memory [m], except that the random source draws [ds] first. *)
Definition with_draws (m : mem) (ds : list Z) : mem := upd_rng (with_choices (m_rng m) 0 ds) m.
(** The different numbers in [ds] that are not in [seen], in the order of their first occurrences. *)
Fixpoint firsts (seen ds : list Z) : list Z :=
  match ds with
  | [] => []
  | d :: ds' => if decide (d ∈ seen) then firsts seen ds' else d :: firsts (d :: seen) ds'
  end.
(** All the ways to choose [k] different elements of a list without repetitions, one after the other. *)
Fixpoint arrangements (k : nat) (l : list Z) : list (list Z) :=
  match k with
  | O => [[]]
  | S k' => flat_map (fun x => map (cons x) (arrangements k' (filter (fun y => y <> x) l))) l
  end.
