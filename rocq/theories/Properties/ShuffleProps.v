(** Property C81: the random orders are fair. *)
From Verif.Spec Require Import ShuffleSpec.
From Verif.Proofs Require Import ShuffleProofs.
Local Open Scope Z_scope.

(** * C81 Every random order comes from exactly one sequence of random choices *)

(** Shuffling: for every order [ys] of distinct elements there is one sequence of choices that gives it,
    and no other does. *)
Theorem C81_shuffle : forall {A} (xs ys : list A), NoDup xs -> ys ≡ₚ xs ->
  exists ds, choices (length xs) ds /\ forall g, (shuffle xs g).1 = ys <-> makes g (length xs) ds.
Proof. exact @shuffle_fair. Qed.
Print Assumptions C81_shuffle.

(** The fallback order of a layer made by New. *)
Theorem C81_new : forall num ys, ys ≡ₚ seqZ 0 num ->
  exists ds, choices (Z.to_nat num) ds /\ forall E cowId prev layerId ty batch k l rp sp w b mom vel m lp m' la,
    layer_New E cowId num prev layerId ty batch k l rp sp w b mom vel m = Ok (lp, m') -> m_layer m' !! lp = Some la ->
    (m_ia m' !! l_rand la = Some ys <-> makes (m_rng m) (Z.to_nat num) ds).
Proof. exact new_order_fair. Qed.
Print Assumptions C81_new.

(** The fallback order after UpdateRandomNodes. *)
Theorem C81_update : forall order ys, NoDup order -> ys ≡ₚ order ->
  exists ds, choices (length order) ds /\ forall lp m m' la ns,
    m_layer m !! lp = Some la -> m_na m !! l_nodes la = Some ns -> m_ia m !! l_rand la = Some order -> length ns = length order ->
    layer_UpdateRandomNodes lp m = Ok (tt, m') ->
    (m_ia m' !! l_rand la = Some ys <-> makes (m_rng m) (length order) ds).
Proof. exact reshuffle_fair. Qed.
Print Assumptions C81_update.

(** Four nodes: the choices 1, 0, 1 give the order 2, 3, 0, 1, for New and then for UpdateRandomNodes. *)
Definition c81_env : env :=
  mkEnv true false SparseRandomProjectionHashFunction LayerMode4 (fun x => x) (fun x _ => x) (fun x => x) (fun _ x => x) 100.
Definition c81_mem : mem :=
  mkMem [] [] [] [] [] [] [] [] [] [] (mkRng (fun n => match n with 0%nat => 1 | 1%nat => 0 | 2%nat => 1 | _ => Z.of_nat n * 7919 end) 0)
    (fun n => f_of_Z (Z.of_nat n mod 5 - 2)) 0 0.
Example C81_ex : choices 4 [1; 0; 1] /\ makes (m_rng c81_mem) 4 [1; 0; 1] /\ [2; 3; 0; 1] ≡ₚ seqZ 0 4 /\
  match layer_New c81_env 1 4 4 0 ReLU 2 1 2 2 fone fs_nil [] fs_nil fs_nil c81_mem with
  | Ok (lp, m) => map l_rand (m_layer m) = [0%nat] /\ map length (m_na m) = [4%nat] /\ m_ia m = [[2; 3; 0; 1]] /\
      match layer_UpdateRandomNodes lp (upd_rng (m_rng c81_mem) m) with
      | Ok (_, m') => m_ia m' = [[0; 1; 2; 3]]
      | Panic _ => False
      end
  | Panic _ => False
  end.
Proof.
  split; [|split; [|split]].
  - split; [done|]. intros [|[|[|k]]] d; cbn; by intros [= <-].
  - intros [|[|[|k]]] d; cbn; by intros [= <-].
  - change (seqZ 0 4) with [0; 1; 2; 3]. solve_Permutation.
  - vm_compute. repeat split.
Qed.
