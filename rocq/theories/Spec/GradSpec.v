(** Forward and backward pass over the active nodes of a network, for any kind of numbers; and, over the real numbers,
    the loss whose gradient the backward pass should give. *)
From Verif.Spec Require Import TrainSpec BatchSpec.
From Coq Require Import Reals.
Local Open Scope Z_scope.

(** * Numbers *)
Record arith := mkArith {
  num : Type; zero : num; one : num; int : Z -> num;
  add : num -> num -> num; sub : num -> num -> num; mul : num -> num -> num; div : num -> num -> num; neg : num -> num;
  lt : num -> num -> bool; le : num -> num -> bool; exp_ : num -> num;
  tiny : num (* what the code adds to the sum of the exponentials *)
}.
(** binary64 numbers, with the code's exponential and its 0.0000001. *)
Definition floats (E : env) : arith :=
  mkArith float64 fzero fone f_of_Z fadd fsub fmul fdiv fneg fltb fleb (e_exp E) (dec 1 (10 ^ 7)).
(** The real numbers; [eps] takes the place of 0.0000001. *)
Definition reals (eps : R) : arith :=
  mkArith R 0%R 1%R IZR Rplus Rminus Rmult Rdiv Ropp
    (fun x y => if Rlt_dec x y then true else false) (fun x y => if Rle_dec x y then true else false) exp eps.

(** * The passes *)
Section Passes.
  Context (A : arith).
  (** An active node: its id in its layer, its weights and its bias.  A layer is the list of its active nodes; a signal
      gives the values of some inputs. *)
  Definition unit_ : Type := Z * list (num A) * num A.
  Definition u_id (u : unit_) : Z := u.1.1.
  Definition u_w (u : unit_) : list (num A) := u.1.2.
  Definition u_b (u : unit_) : num A := u.2.
  Definition signal : Type := list (Z * num A).
  Definition weight (u : unit_) (i : Z) : num A := default (zero A) (u_w u !! Z.to_nat i).

  (** The weighted sum of the inputs plus the bias. *)
  Definition net_input (cur : signal) (u : unit_) : num A :=
    add A (fold_left (fun s p => add A s (mul A (weight u p.1) p.2)) cur (zero A)) (u_b u).
  Definition relu (x : num A) : num A := if lt A x (zero A) then zero A else x.
  (** Output of a relu_layer layer. *)
  Definition relu_layer (l : list unit_) (cur : signal) : signal := zip (map u_id l) (map relu (map (net_input cur) l)).
  (** Output of the last layer: exponentials relative to the greatest of 0 and the weighted sums. *)
  Definition top (zs : list (num A)) : num A := fold_left (fun mx z => if lt A mx z then z else mx) zs (zero A).
  Definition exponentials (zs : list (num A)) : list (num A) := map (fun z => exp_ A (sub A z (top zs))) zs.
  Definition softmax_layer (l : list unit_) (cur : signal) : signal := zip (map u_id l) (exponentials (map (net_input cur) l)).

  (** Features and outputs of the layers. *)
  Fixpoint forward (net : list (list unit_)) (cur : signal) : list signal :=
    cur :: match net with
           | [] => []
           | [l] => [softmax_layer l cur]
           | l :: rest => forward rest (relu_layer l cur)
           end.

  (** Error of an output node. *)
  Definition out_error (batch : Z) (lab : list Z) (sum : num A) (p : Z * num A) : num A :=
    let share := div A p.2 (add A sum (tiny A)) in
    if bool_decide (p.1 ∈ lab)
    then sub A (div A (one A) (int A (Z.of_nat (length lab)))) (div A share (int A batch))
    else div A (neg A share) (int A batch).
  (** Error of a hidden node, from the nodes of the next layer and their errors. *)
  Definition back_error (next : list (unit_ * num A)) (p : Z * num A) : num A :=
    if le A p.2 (zero A) then zero A
    else fold_left (fun acc '(u, d) => add A acc (mul A d (weight u p.1))) next (zero A).
  Fixpoint backward (batch : Z) (lab : list Z) (net : list (list unit_)) (cur : signal) : list (list (num A)) :=
    match net with
    | [] => []
    | [l] => [map (out_error batch lab (fold_left (add A) (map snd (softmax_layer l cur)) (zero A))) (softmax_layer l cur)]
    | l :: (next :: _) as rest =>
        let ds := backward batch lab rest (relu_layer l cur) in
        map (back_error (zip next (default [] (head ds)))) (relu_layer l cur) :: ds
    end.

  (** The weights of a node with error [d] and inputs [cur] after the plain step with rate [lr]. *)
  Definition stepped (lr : num A) (d : num A) (cur : signal) (w : list (num A)) : list (num A) :=
    fold_left (fun w p => alter (fun x => add A x (mul A lr (mul A d p.2))) (Z.to_nat p.1) w) cur w.
End Passes.

(** * The code's passes are these, over binary64 *)
Definition unpair (p : Pair) : Z * float64 := (iv_index p, iv_value p).
(** The active nodes of layers whose views are [lvs], when the ids of the active ones are [idss]. *)
Definition active_net (E : env) (lvs : list LayerView) (idss : list (list Z)) : list (list (unit_ (floats E))) :=
  zip_with (fun lv ids => map (fun id => (id, from_option v_w [] (lv_nodes lv !! Z.to_nat id),
                                              from_option v_bias fzero (lv_nodes lv !! Z.to_nat id))) ids) lvs idss.
(** The ids of the active nodes in a pass. *)
Definition active_ids (p : pass) : list (list Z) := map (map iv_index) (tail p.1).
(** Hidden layers are ReLU layers of ReLU nodes and the last one is a softmax layer of softmax nodes. *)
Definition relu_softmax (lvs : list LayerView) : Prop :=
  lvs <> [] /\
  forall j lv, lvs !! j = Some lv ->
    let ty := if bool_decide (S j = length lvs) then Softmax else ReLU in
    lv_type lv = ty /\ Forall (fun v => v_type v = ty) (lv_nodes lv).

(** * The loss, over the reals *)
Section Loss.
  Local Open Scope R_scope.
  Definition sum_of (xs : list R) : R := fold_right Rplus 0 xs.
  (** The weighted sums of the last layer. *)
  Fixpoint logits (net : list (list (unit_ (reals 0)))) (cur : signal (reals 0)) : list (Z * R) :=
    match net with
    | [] => []
    | [l] => zip (map (u_id _) l) (map (net_input (reals 0) cur) l)
    | l :: rest => logits rest (relu_layer (reals 0) l cur)
    end.
  (** The softmax probability of class [t]. *)
  Definition probability (zs : list (Z * R)) (t : Z) : R :=
    sum_of (map (fun p => exp p.2) (filter (fun p => p.1 = t) zs)) / sum_of (map (fun p => exp p.2) zs).
  (** The cross-entropy of the softmax with the uniform distribution on the labels. *)
  Definition cross_entropy (lab : list Z) (zs : list (Z * R)) : R :=
    - / INR (length lab) * sum_of (map (fun t => ln (probability zs t)) lab).
  Definition loss (lab : list Z) (feats : signal (reals 0)) (net : list (list (unit_ (reals 0)))) : R :=
    cross_entropy lab (logits net feats).

  (** What training with a batch size of [batch] follows: the cross-entropy without all but one [batch]-th of the
      logarithm of the sum of the exponentials. *)
  Definition objective (batch : Z) (lab : list Z) (zs : list (Z * R)) : R :=
    cross_entropy lab zs - (1 - / IZR batch) * ln (sum_of (map (fun p => exp p.2) zs)).
  Definition batch_loss (batch : Z) (lab : list Z) (feats : signal (reals 0)) (net : list (list (unit_ (reals 0)))) : R :=
    objective batch lab (logits net feats).
  (** The network with [c] added to the bias of every output node. *)
  Definition raise (c : R) (net : list (list (unit_ (reals 0)))) : list (list (unit_ (reals 0))) :=
    alter (map (fun u : unit_ (reals 0) => (u_id _ u, u_w _ u, (u_b _ u + c)%R : num (reals 0)) : unit_ (reals 0))) (Nat.pred (length net)) net.

  (** The network with weight [q], or the bias, of node [a] of layer [j] replaced. *)
  Definition set_weight (j a q : nat) (x : R) : list (list (unit_ (reals 0))) -> list (list (unit_ (reals 0))) :=
    alter (alter (fun u : unit_ (reals 0) => (u_id _ u, <[q := (x : num (reals 0))]> (u_w _ u), u_b _ u) : unit_ (reals 0)) a) j.
  Definition set_bias (j a : nat) (x : R) : list (list (unit_ (reals 0))) -> list (list (unit_ (reals 0))) :=
    alter (alter (fun u : unit_ (reals 0) => (u_id _ u, u_w _ u, x : num (reals 0)) : unit_ (reals 0)) a) j.

  (** No hidden node sits exactly at the kink of ReLU. *)
  Fixpoint off_kink (net : list (list (unit_ (reals 0)))) (cur : signal (reals 0)) : Prop :=
    match net with
    | [] | [_] => True
    | l :: rest => Forall (fun u => net_input (reals 0) cur u <> 0) l /\ off_kink rest (relu_layer (reals 0) l cur)
    end.
  (** The active output nodes are distinct and include the labels, of which there are some, all distinct. *)
  Definition labels_active (lab : list Z) (net : list (list (unit_ (reals 0)))) : Prop :=
    exists l, List.last net [] = l /\ net <> [] /\ NoDup (map (u_id _) l) /\ NoDup lab /\ lab <> [] /\ forall t, t ∈ lab -> t ∈ map (u_id _) l.
End Loss.

(** * Training calls *)
(** ReLU for all layers but the last, softmax for the last. *)
Definition usual_types (num : Z) (types : list NodeType) : Prop :=
  1 <= num /\ forall j : nat, Z.of_nat j < num -> types !! j = Some (if bool_decide (Z.of_nat (S j) = num) then Softmax else ReLU).
(** [p] is the generic pass, over binary64, of [ex] through the active nodes of the layers. *)
Definition generic_pass (E : env) (batch : Z) (lvs : list LayerView) (ex : Example_) (p : pass) : Prop :=
  map (map unpair) p.1 = forward (floats E) (active_net E lvs (active_ids p)) (map unpair (features ex)) /\
  p.2 = backward (floats E) batch (labels ex) (active_net E lvs (active_ids p)) (map unpair (features ex)).
