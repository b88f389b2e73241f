(** Counting over the choices that make one random projection: the shuffle that picks its features, and their signs. *)
From Coq Require Import Factorial.
From Verif.Spec Require Export BiasSpec SrpSpec.
From Verif.Model Require Export Srp.
Local Open Scope Z_scope.

(** All the sequences of [k] choices between 0 and 1. *)
Fixpoint all_signs (k : nat) : list (list Z) :=
  match k with O => [[]] | S k => map (cons 0) (all_signs k) ++ map (cons 1) (all_signs k) end.

(** Projection number [b] of [u] with the random source [g], and the features it uses. *)
Definition srp_bit (dim numHashes ratio : Z) (g : rng) (u : list float64) (b : Z) : option Z :=
  t ← ok (srp_New dim numHashes ratio g); hs ← ok (srp_GetHash t.1 u); hs !! Z.to_nat b.
Definition srp_features (dim numHashes ratio : Z) (g : rng) (b : Z) : option (list Z) :=
  t ← ok (srp_New dim numHashes ratio g); srp_indices t.1 !! Z.to_nat b.

(** A projection uses one feature in [ratio], rounded up.  It takes [dim - 1] draws for the shuffle, then one draw for each sign. *)
Definition sampled (dim ratio : Z) : Z := (dim + ratio - 1) / ratio.
Definition draws_before (dim ratio b : Z) : nat := Z.to_nat (b * (dim - 1 + sampled dim ratio)).
Definition draws_to_signs (dim ratio b : Z) : nat := (draws_before dim ratio b + Z.to_nat (dim - 1))%nat.
(** The sum with the signs [ds]: 0 is plus, 1 is minus. *)
Definition sum_with (ind ds : list Z) (u : list float64) : float64 := signed_sum (zip ind (map (fun d => d =? 0) ds)) u.
