(** C88: a random projection picks its features fairly, and its bits are unbiased (package sparse_random_projection). *)
From Coq Require Import Factorial.
From Verif.Spec Require Import SignSpec.
From Verif.Proofs Require Import SignProofs.
Local Open Scope Z_scope.

(** Over the outcomes of its shuffle, a projection uses every set of [sampled dim ratio] features equally often. *)
Theorem C88_features : forall dim ratio numHashes, 0 < dim < 2 ^ 53 -> 1 <= ratio <= 2 ^ 53 -> 0 <= numHashes ->
  forall b, 0 <= b < numHashes -> forall g s, s ∈ combos (Z.to_nat (sampled dim ratio)) (seqZ 0 dim) ->
  (length (filter (fun ds => srp_features dim numHashes ratio (with_choices g (draws_before dim ratio b) ds) b = Some s) (all_choices (Z.to_nat dim)))
     * length (combos (Z.to_nat (sampled dim ratio)) (seqZ 0 dim)) = fact (Z.to_nat dim))%nat.
Proof. exact samples_fair. Qed.
Print Assumptions C88_features.

(** Over the choices of its signs, the bits 0 exceed the bits 1 only by the sums that are zero, and fall short only by those that are NaN. *)
Theorem C88_balance : forall dim ratio numHashes, 0 < dim < 2 ^ 53 -> 1 <= ratio <= 2 ^ 53 -> 0 <= numHashes ->
  forall b, 0 <= b < numHashes -> forall g u, dim <= Z.of_nat (length u) -> exists ind, srp_features dim numHashes ratio g b = Some ind /\
  let signs := all_signs (Z.to_nat (sampled dim ratio)) in
  let bit ds := srp_bit dim numHashes ratio (with_choices g (draws_to_signs dim ratio b) ds) u b in
  (length (filter (fun ds => bit ds = Some 0%Z) signs) + length (filter (fun ds => is_nan (sum_with ind ds u) = true) signs) =
   length (filter (fun ds => bit ds = Some 1%Z) signs) + length (filter (fun ds => is_zero (sum_with ind ds u) = true) signs))%nat.
Proof. exact bits_balance. Qed.
Print Assumptions C88_balance.

(** So if no signed sum of the features is zero or NaN, each bit comes up in half of the outcomes. *)
Theorem C88_unbiased : forall dim ratio numHashes, 0 < dim < 2 ^ 53 -> 1 <= ratio <= 2 ^ 53 -> 0 <= numHashes ->
  forall b, 0 <= b < numHashes -> forall g u, dim <= Z.of_nat (length u) ->
  (forall ind ds, srp_features dim numHashes ratio g b = Some ind -> ds ∈ all_signs (Z.to_nat (sampled dim ratio)) ->
     is_zero (sum_with ind ds u) = false /\ is_nan (sum_with ind ds u) = false) ->
  forall q, q = 0 \/ q = 1 ->
  (2 * length (filter (fun ds => srp_bit dim numHashes ratio (with_choices g (draws_to_signs dim ratio b) ds) u b = Some q) (all_signs (Z.to_nat (sampled dim ratio))))
     = 2 ^ Z.to_nat (sampled dim ratio))%nat.
Proof. exact unbiased. Qed.
Print Assumptions C88_unbiased.

(** Six features, one in two of them sampled, the second of two projections: the values 1, 2, 4, 8, 16, 32 have no signed sum that is zero. *)
Definition powers6 : list float64 := map f_of_Z [1; 2; 4; 8; 16; 32].
Definition gs6 : rng := mkRng (fun i => Z.of_nat i * 7 + 3) 0.
Example C88_ready : sampled 6 2 = 3 /\ [1; 3; 4] ∈ combos (Z.to_nat (sampled 6 2)) (seqZ 0 6) /\
  forall ind ds, srp_features 6 2 2 gs6 1 = Some ind -> ds ∈ all_signs (Z.to_nat (sampled 6 2)) -> is_zero (sum_with ind ds powers6) = false /\ is_nan (sum_with ind ds powers6) = false.
Proof.
  split; [reflexivity|]. split; [apply elem_of_list_In; vm_compute; tauto|]. intros ind ds Hi Hds.
  assert (HA : forallb (fun ds => negb (is_zero (sum_with (default [] (srp_features 6 2 2 gs6 1)) ds powers6)) && negb (is_nan (sum_with (default [] (srp_features 6 2 2 gs6 1)) ds powers6)))
    (all_signs (Z.to_nat (sampled 6 2))) = true) by (vm_compute; reflexivity).
  rewrite forallb_forall in HA. rewrite Hi in HA. cbn [default] in HA. apply elem_of_list_In in Hds. specialize (HA ds Hds). apply andb_prop in HA as [H1 H2]. apply negb_true_iff in H1, H2. done.
Qed.
(** Four of the eight sign choices give the bit 1. *)
Example C88_half : (2 * length (filter (fun ds => srp_bit 6 2 2 (with_choices gs6 (draws_to_signs 6 2 1) ds) powers6 1 = Some 1%Z) (all_signs (Z.to_nat (sampled 6 2)))) = 8)%nat.
Proof.
  destruct C88_ready as (_ & _ & HZ). exact (C88_unbiased 6 2 2 ltac:(lia) ltac:(lia) ltac:(lia) 1 ltac:(lia) gs6 powers6 ltac:(vm_compute; discriminate) HZ 1 (or_intror eq_refl)).
Qed.
