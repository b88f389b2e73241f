(** Steps of training, and steps that go downhill. *)
From Coq Require Import Reals.
From Verif.Spec Require Export TrainSpec BatchSpec GradSpec.
Local Open Scope Z_scope.

(** The bias of a node with error [d] after the plain step of the code; [first] tells the first layer. *)
Definition bias_step (A : arith) (first : bool) (lr d b : num A) : num A :=
  add A b (if first then add A lr d else mul A lr d).

Section Steps.
  Local Open Scope R_scope.
  Notation network := (list (list (unit_ (reals 0)))).
  Context (lab : list Z) (feats : signal (reals 0)) (net : network).
  (** Error of node [a] of layer [j], and the inputs of the layer, in the passes for batch size 1. *)
  Definition err (j a : nat) : R := default 0 (ds ← backward (reals 0) 1 lab net feats !! j; ds !! a).
  Definition input (j : nat) : signal (reals 0) := default [] (forward (reals 0) net feats !! j).
  Definition each_unit (f : nat -> nat -> unit_ (reals 0) -> unit_ (reals 0)) : network := imap (fun j l => imap (f j) l) net.
  (** The plain step as it should be, and as the code does it. *)
  Definition sgd_net (lr : R) : network :=
    each_unit (fun j a u => (u_id _ u, stepped (reals 0) lr (err j a) (input j) (u_w _ u), bias_step (reals 0) false lr (err j a) (u_b _ u))).
  Definition code_net (lr : R) : network :=
    each_unit (fun j a u => (u_id _ u, stepped (reals 0) lr (err j a) (input j) (u_w _ u), bias_step (reals 0) (bool_decide (j = 0%nat)) lr (err j a) (u_b _ u))).
  (** Adam's first step, from moments that are 0 ([adam_mom], [adam_vel] and [adam_par] of TrainSpec.v over the reals). *)
  Definition adam_first (lr t x : R) : R := x + lr * (1 / 10 * t) / (R_sqrt.sqrt (1 / 1000 * t * t) + / 10 ^ 8).
  Definition adam_net (lr : R) : network :=
    each_unit (fun j a u => (u_id _ u,
      zip_with (adam_first lr) (stepped (reals 0) 1 (err j a) (input j) (replicate (length (u_w _ u)) 0)) (u_w _ u), adam_first lr (err j a) (u_b _ u))).

  (** [path lr] is the network with every weight and bias moved against its derivative of the loss, by [lr] times a rate
      of its own times the derivative. *)
  Definition downhill (rate : nat -> nat -> option nat -> R) (path : R -> network) : Prop :=
    forall lr, length (path lr) = length net /\
      forall j l, net !! j = Some l -> exists l', path lr !! j = Some l' /\ length l' = length l /\
        forall a u, l !! a = Some u -> exists u', l' !! a = Some u' /\ u_id _ u' = u_id _ u /\ length (u_w _ u') = length (u_w _ u) /\
          (forall q w, u_w _ u !! q = Some w -> exists g, derivable_pt_lim (fun x => loss lab feats (set_weight j a q x net)) w g /\
             u_w _ u' !! q = Some (w - lr * (rate j a (Some q) * g))) /\
          exists g, derivable_pt_lim (fun x => loss lab feats (set_bias j a x net)) (u_b _ u) g /\
            u_b _ u' = u_b _ u - lr * (rate j a None * g).
End Steps.
