(** The scores of a dense network in exact arithmetic, and how far the computed ones may be from them. *)
From Verif.Spec Require Export BatchSpec DenseSpec RoundSpec.
From Coq Require Import Reals.
Local Open Scope Z_scope.

(** The inputs of a layer: the number and the exact value of each. *)
Definition inputs := list (Z * R).
Definition exact_inputs (feats : list Pair) : inputs := map (fun p => (iv_index p, val (iv_value p))) feats.
Definition input_weight (w : list float64) (i : Z) : R := val (default fzero (w !! Z.to_nat i)).

(** The exact value of a node; the sum of the absolute values that are added up; how much an error in the inputs is
    magnified. *)
Definition exact_value (xs : inputs) (nd : NodeType * list float64 * float64) : R :=
  let '(ty, w, b) := nd in activation_of ty (sumR (map (fun ix => input_weight w ix.1 * ix.2) xs) + val b)%R.
Definition exact_size (xs : inputs) (nd : NodeType * list float64 * float64) : R :=
  let '(_, w, b) := nd in (sumR (map (fun ix => Rabs (input_weight w ix.1 * ix.2)) xs) + Rabs (val b))%R.
Definition gain (xs : inputs) (nd : NodeType * list float64 * float64) : R :=
  let '(_, w, _) := nd in sumR (map (fun ix => Rabs (input_weight w ix.1)) xs).
(** The error of a node whose inputs are known up to [e]: what the inputs bring, and one rounding per operation. *)
Definition node_error (xs : inputs) (e : R) (nd : NodeType * list float64 * float64) : R :=
  (gain xs nd * e + gamma (length xs + 2) * (exact_size xs nd + gain xs nd * e) + INR (length xs + 1) * eta_round)%R.

(** A layer: the exact values of its nodes, and the greatest of their errors. *)
Definition exact_layer (xs : inputs) (l : NodeType * list (NodeType * list float64 * float64)) : inputs :=
  zip (seqZ 0 (Z.of_nat (length l.2))) (map (exact_value xs) l.2).
Definition layer_error (xs : inputs) (e : R) (l : NodeType * list (NodeType * list float64 * float64)) : R :=
  fold_right Rmax 0%R (map (node_error xs e) l.2).
(** The last layer's exact scores and their error bound. *)
Definition scores (ps : parameters) (feats : list Pair) : inputs * R :=
  fold_left (fun st l => (exact_layer st.1 l, layer_error st.1 st.2 l)) ps (exact_inputs feats, 0%R).

(** The parameters are finite, no layer is wider than 2^50 and no sum is huge. *)
Fixpoint tame (ps : parameters) (xs : inputs) (e : R) : Prop :=
  match ps with
  | [] => True
  | l :: ps => Z.of_nat (length xs) <= 2 ^ 50 /\
      Forall (fun nd => Forall finite_number nd.1.2 /\ finite_number nd.2 /\ (exact_size xs nd + gain xs nd * e <= 2 ^ 1000)%R) l.2 /\
      tame ps (exact_layer xs l) (layer_error xs e l)
  end.

(** Only the last layer is softmax. *)
Definition softmax_last (ps : parameters) : Prop :=
  exists hidden out, ps = hidden ++ [(Softmax, out)] /\ Forall (fun l => is_softmax l.1 = false) hidden.

(** exp tells apart arguments between -600 and 0 that are at least [d] apart. *)
Definition exp_separates (exp : float64 -> float64) (d : R) : Prop :=
  forall x y, finite_number x -> finite_number y -> (-600 <= val y <= 0)%R -> (val x + d <= val y)%R -> fltb (exp x) (exp y) = true.

(** exp is accurate to [2^-50] of its value, or [2^-1074] when that is smaller still. *)
Definition exp_accurate (exp : float64 -> float64) : Prop :=
  forall x, finite_number x -> (val x <= 0)%R ->
    finite_number (exp x) /\ (Rabs (val (exp x) - Rtrigo_def.exp (val x)) <= / 2 ^ 50 * Rtrigo_def.exp (val x) + / 2 ^ 1074)%R.

(** Class [k] wins by more than the errors can make up for. *)
Definition clear_winner (d : R) (ps : parameters) (feats : list Pair) (k : Z) : Prop :=
  exists xk, (k, xk) ∈ (scores ps feats).1 /\ (-600 <= xk - (scores ps feats).2)%R /\
    forall j x, (j, x) ∈ (scores ps feats).1 -> j <> k -> (x + 2 * (scores ps feats).2 + 2 * d <= xk)%R.
