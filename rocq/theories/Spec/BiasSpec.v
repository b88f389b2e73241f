(** How often a random table gives a hash: counting over the choices of the random source. *)
From Coq Require Import Factorial.
From Verif.Spec Require Export ShuffleSpec.
From Verif.Model Require Export Wta Dwta.
Local Open Scope Z_scope.

(** All the [choices n]: the n! ways to choose a number below [n], then one below [n-1], and so on down to one below 2. *)
Fixpoint all_choices (n : nat) : list (list Z) :=
  match n with
  | O | 1%nat => [[]]
  | S n' => flat_map (fun d => map (cons d) (all_choices n')) (seqZ 0 (Z.of_nat n))
  end.
(** The random source [g], except that its draws from number [k] on are [ds]. *)
Definition with_choices (g : rng) (k : nat) (ds : list Z) : rng :=
  {| rstream := fun i => default (rstream g i) (if decide (i < rpos g + k)%nat then None else ds !! (i - (rpos g + k))%nat);
     rpos := rpos g |}.

(** Any two entries are unequal numbers; every entry is above -2^63. *)
Definition all_different (u : list float64) : Prop :=
  forall i j x y, i <> j -> u !! i = Some x -> u !! j = Some y -> fltb x y = true \/ fltb y x = true.
Definition all_above (u : list float64) : Prop := Forall (fun x => fltb (f_of_Z (- 2 ^ 63)) x = true) u.

(** All the ways to take [k] elements of a list, in its order. *)
Fixpoint combos (k : nat) (l : list Z) : list (list Z) :=
  match k, l with
  | O, _ => [[]]
  | S _, [] => []
  | S k', x :: l' => map (cons x) (combos k' l') ++ combos k l'
  end.
(** The feature in [s] with the greatest value in [u]. *)
Definition value_of (u : list float64) (f : Z) : float64 := default fzero (u !! Z.to_nat f).
Definition winner (u : list float64) (s : list Z) : option Z :=
  head (filter (fun f => forallb (fun f' => bool_decide (f' = f) || fltb (value_of u f') (value_of u f)) s = true) s).

(** Hash number [b] of [u] in the tables made from the random source [g]. *)
Definition ok {A} (r : res A) : option A := match r with Ok a => Some a | Panic _ => None end.
Definition wta_hash (numHashes n : Z) (g : rng) (u : list float64) (b : Z) : option Z :=
  t ← ok (wta_New numHashes n g); hs ← ok (wta_GetHashDense t.1 u); hs !! Z.to_nat b.
Definition dwta_hash (log2 : float64 -> float64) (numHashes n : Z) (g : rng) (u : list float64) (topK b : Z) : option Z :=
  t ← ok (dwta_New log2 numHashes n g); hs ← ok (dwta_GetHashEasy t.1 u topK); hs !! Z.to_nat b.

(** The eight slots of bin [b] lie inside random order number [p] of [n] features. *)
Definition inside (n b p : Z) : Prop := 0 <= p /\ p * n <= 8 * b /\ 8 * b + 8 <= (p + 1) * n.
