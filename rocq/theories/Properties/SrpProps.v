(** C29-C32: sparse_random_projection. *)
From Verif.Model Require Import Srp.
From Verif.Spec Require Import HashSpec SrpSpec.
From Verif.Proofs Require Import BaseProofs SrpProofs.
From Coq Require Import Lia.

Definition gs : rng := {| rstream := fun n => 7 + 13 * Z.of_nat n; rpos := 0 |}.

(** C29.  For pairs with strictly increasing indices, GetHashSparse gives exactly the hashes of
    the dense vector, for every float64 value. *)
Theorem C29_srp_sparse_equals_dense : forall dim numHashes ratio g t g' n pairs,
  0 <= dim < 2^53 -> 1 <= ratio <= 2^53 -> 0 <= numHashes ->
  srp_New dim numHashes ratio g = Ok (t, g') -> dim <= n ->
  increasing (map iv_index pairs) ->
  exists hs, srp_GetHashSparse t pairs = Ok hs /\ srp_GetHash t (dense_of n pairs) = Ok hs.
Proof. exact srp_sparse_dense. Qed.
Print Assumptions C29_srp_sparse_equals_dense.

Example C29_example :
  ('(t, _) ← srp_New 6 4 2 gs;
   a ← srp_GetHashSparse t [mkPair 0 fone; mkPair 3 (fneg (f_of_Z 5)); mkPair 5 (f_of_Z 2)];
   b ← srp_GetHash t [fone; fzero; fzero; fneg (f_of_Z 5); fzero; f_of_Z 2]; Ok (a, b))
  = Ok ([0; 0; 0; 1], [0; 0; 0; 1]).
Proof. vm_compute. reflexivity. Qed.

(** C30.  Refuted: swapping two pairs can change the hash ... *)
Theorem C30_srp_order_independent_refuted :
  exists dim numHashes ratio g t g' pairs pairs' hs hs',
    0 <= dim < 2^53 /\ 1 <= ratio /\ 0 <= numHashes /\ srp_New dim numHashes ratio g = Ok (t, g') /\
    Forall (fun p => 0 <= iv_index p < dim) pairs /\ NoDup (map iv_index pairs) /\ pairs ≡ₚ pairs' /\
    srp_GetHashSparse t pairs = Ok hs /\ srp_GetHashSparse t pairs' = Ok hs' /\ hs <> hs'.
Proof. exact srp_order_refuted. Qed.
Print Assumptions C30_srp_order_independent_refuted.

(** ... what holds: on pairs sorted by increasing index the hash is a function of the set of pairs
    (there is one such order), and by C29 it is the hash of the vector they denote. *)
Theorem C30_srp_order_independent_partial : forall t pairs pairs',
  increasing (map iv_index pairs) -> increasing (map iv_index pairs') -> pairs ≡ₚ pairs' ->
  srp_GetHashSparse t pairs = srp_GetHashSparse t pairs'.
Proof. exact srp_order_sorted. Qed.
Print Assumptions C30_srp_order_independent_partial.

Example C30_example : increasing (map iv_index [mkPair 0 fone; mkPair 3 fone]).
Proof. repeat constructor. Qed.

(** C31.  ceil(dim/ratio) distinct features in range, in increasing order, per hash; GetHash never
    panics on vectors of length >= dim and returns bits. *)
Theorem C31_srp_samples_distinct_features : forall dim numHashes ratio g,
  0 <= dim < 2^53 -> 1 <= ratio <= 2^53 -> 0 <= numHashes ->
  exists t g', srp_New dim numHashes ratio g = Ok (t, g') /\
    Z.of_nat (length (srp_indices t)) = numHashes /\
    (forall i ind, srp_indices t !! i = Some ind ->
       Z.of_nat (length ind) = (dim + ratio - 1) / ratio /\ increasing ind /\
       Forall (fun f => 0 <= f < dim) ind) /\
    forall vec, dim <= Z.of_nat (length vec) ->
      exists hs, srp_GetHash t vec = Ok hs /\ Z.of_nat (length hs) = numHashes /\
        Forall (fun h => h = 0 \/ h = 1) hs.
Proof. exact srp_new_spec. Qed.
Print Assumptions C31_srp_samples_distinct_features.

Example C31_example :
  ('(t, _) ← srp_New 7 2 3 gs; Ok (srp_indices t)) = Ok [[1; 4; 6]; [3; 4; 6]].
Proof. vm_compute. reflexivity. Qed.

(** C32.  The hash is the sign of the signed sum of the sampled features; negating the vector flips
    the bit, unless the sum is zero or NaN. *)
Theorem C32_srp_negation_flips : forall dim numHashes ratio g t g' vec,
  0 <= dim < 2^53 -> 1 <= ratio <= 2^53 -> 0 <= numHashes ->
  srp_New dim numHashes ratio g = Ok (t, g') -> dim <= Z.of_nat (length vec) ->
  exists hs hs', srp_GetHash t vec = Ok hs /\ srp_GetHash t (map fneg vec) = Ok hs' /\
    Z.of_nat (length hs) = numHashes /\ Z.of_nat (length hs') = numHashes /\
    forall i, 0 <= i < numHashes -> exists ind bits h,
      srp_indices t !! Z.to_nat i = Some ind /\ srp_randBits t !! Z.to_nat i = Some bits /\
      let s := signed_sum (zip ind bits) vec in
      hs !! Z.to_nat i = Some h /\ h = (if fleb fzero s then 0 else 1) /\
      hs' !! Z.to_nat i = Some (if is_zero s || is_nan s then h else 1 - h).
Proof. exact srp_negation. Qed.
Print Assumptions C32_srp_negation_flips.

Example C32_example :
  ('(t, _) ← srp_New 4 3 2 gs;
   a ← srp_GetHash t [fone; f_of_Z 3; f_of_Z 5; fzero];
   b ← srp_GetHash t (map fneg [fone; f_of_Z 3; f_of_Z 5; fzero]); Ok (a, b))
  = Ok ([1; 1; 1], [0; 0; 0]).
Proof. vm_compute. reflexivity. Qed.
