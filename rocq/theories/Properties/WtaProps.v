(** C14-C17: wta_hash. *)
From Verif.Model Require Import Wta.
From Verif.Spec Require Import HashSpec.
From Verif.Proofs Require Import BaseProofs FloatOrder WtaProofs.
From Coq Require Import Lia.

Definition gw : rng := {| rstream := fun n => 5 + 11 * Z.of_nat n; rpos := 0 |}.

(** C14.  The table is ceil(8*numHashes/n) stacked permutations of 0..n-1; hashing any vector of
    length >= n succeeds and gives numHashes values. *)
Theorem C14_wta_tables_are_permutations : forall numHashes n g,
  0 <= numHashes -> 8 * numHashes < 2^53 -> 0 < n <= 2^53 ->
  exists t g' perms, wta_New numHashes n g = Ok (t, g') /\
    wta_indices t = concat perms /\
    Forall (fun p => p ≡ₚ seqZ 0 n) perms /\
    Z.of_nat (length perms) = (8 * numHashes + n - 1) / n /\
    8 * numHashes <= Z.of_nat (length (wta_indices t)) /\
    (forall data, n <= Z.of_nat (length data) ->
       exists hs, wta_GetHashDense t data = Ok hs /\ Z.of_nat (length hs) = numHashes).
Proof. exact wta_tables. Qed.
Print Assumptions C14_wta_tables_are_permutations.

Example C14_example :
  ('(t, _) ← wta_New 2 3 gw; Ok (length (wta_indices t))) = Ok 18%nat /\
  ('(t, _) ← wta_New 2 3 gw; wta_GetHashDense t [fone; fzero; f_of_Z 2]) = Ok [2; 2].
Proof. split; vm_compute; reflexivity. Qed.

(** C15.  The hash is the first candidate holding the greatest value above -2^63, and MinInt64 when
    there is none.  (Every table, every vector on which the call returns.) *)
Theorem C15_wta_hash_is_first_max : forall t data hs i h,
  wta_GetHashDense t data = Ok hs -> hs !! i = Some h ->
  exists cands vals,
    cands = take 8 (drop (8 * i) (wta_indices t)) /\ length cands = 8%nat /\
    Forall2 (fun c v => 0 <= c /\ data !! Z.to_nat c = Some v) cands vals /\
    ((exists q, first_max (f_of_Z (- 2^63)) vals q /\ cands !! q = Some h) \/
     (none_above (f_of_Z (- 2^63)) vals /\ h = - 2^63)).
Proof. exact wta_dense_first_max. Qed.
Print Assumptions C15_wta_hash_is_first_max.

(** The specification determines the result. *)
Theorem C15_first_max_unique : forall lo vals q q',
  first_max lo vals q -> (first_max lo vals q' -> q = q') /\ ~ none_above lo vals.
Proof. exact first_max_unique. Qed.
Print Assumptions C15_first_max_unique.

Example C15_example :
  wta_GetHashDense {| wta_indices := [3;0;1;2;3;0;1;2; 0;0;0;0;0;0;0;0]; wta_numHashes := 2; wta_rangePow := 4 |}
    [fnan; f_of_Z 7; f_of_Z 7; S754_infinity true] = Ok [1; minInt64].
Proof. vm_compute; reflexivity. Qed.

(** C16.  Vectors with the same order (and the same eligible coordinates) get the same result. *)
Theorem C16_wta_depends_only_on_order : forall t data data',
  length data = length data' ->
  (forall a b x y x' y', data !! a = Some x -> data !! b = Some y ->
     data' !! a = Some x' -> data' !! b = Some y' -> fltb x y = fltb x' y') ->
  (forall a x x', data !! a = Some x -> data' !! a = Some x' -> fltb (f_of_Z (- 2^63)) x = fltb (f_of_Z (- 2^63)) x') ->
  wta_GetHashDense t data = wta_GetHashDense t data'.
Proof. exact wta_order_only. Qed.
Print Assumptions C16_wta_depends_only_on_order.

Example C16_example :
  let data := [f_of_Z 1; f_of_Z 5; f_of_Z 3] in let data' := [f_of_Z (-9); f_of_Z 1000; fzero] in
  (forall a b x y x' y', data !! a = Some x -> data !! b = Some y ->
     data' !! a = Some x' -> data' !! b = Some y' -> fltb x y = fltb x' y') /\
  (forall a x x', data !! a = Some x -> data' !! a = Some x' -> fltb fMinInt64 x = fltb fMinInt64 x').
Proof.
  split.
  - intros [|[|[|a]]] [|[|[|b]]] x y x' y'; try done; intros [= <-] [= <-] [= <-] [= <-]; reflexivity.
  - intros [|[|[|a]]] x x'; try done; intros [= <-] [= <-]; reflexivity.
Qed.

(** C17.  Refuted: feature indices are ignored, so sparse and dense hashes differ. *)
Theorem C17_wta_sparse_equals_dense_refuted :
  exists numHashes n g t g' pairs hs hs',
    wta_New numHashes n g = Ok (t, g') /\
    NoDup (map iv_index pairs) /\ Forall (fun p => 0 <= iv_index p < n) pairs /\
    wta_GetHashDense t (dense_of n pairs) = Ok hs /\
    wta_GetHash t pairs = Ok hs' /\ hs <> hs'.
Proof. exact wta_sparse_refuted. Qed.
Print Assumptions C17_wta_sparse_equals_dense_refuted.

(** ... and a vector with an absent feature makes the call panic although the dense one works. *)
Theorem C17_wta_sparse_panics_refuted :
  exists numHashes n g t g' pairs hs,
    wta_New numHashes n g = Ok (t, g') /\
    NoDup (map iv_index pairs) /\ Forall (fun p => 0 <= iv_index p < n) pairs /\
    wta_GetHashDense t (dense_of n pairs) = Ok hs /\ wta_GetHash t pairs = Panic PIndex.
Proof. exact wta_sparse_panics. Qed.
Print Assumptions C17_wta_sparse_panics_refuted.

(** What holds: GetHash is GetHashDense on the values in list order, hence right exactly for pairs
    that list all features in order.  Missing: pairs with absent or unordered features. *)
Theorem C17_wta_sparse_equals_dense_partial : forall t n pairs,
  map iv_index pairs = seqZ 0 n ->
  wta_GetHash t pairs = wta_GetHashDense t (dense_of n pairs).
Proof. exact wta_sparse_full. Qed.
Print Assumptions C17_wta_sparse_equals_dense_partial.

Theorem C17_wta_sparse_is_dense_of_values_partial : forall t pairs,
  wta_GetHash t pairs = wta_GetHashDense t (map iv_value pairs).
Proof. exact wta_GetHash_values. Qed.
Print Assumptions C17_wta_sparse_is_dense_of_values_partial.

Example C17_example :
  map iv_index [mkPair 0 fone; mkPair 1 (f_of_Z 3)] = seqZ 0 2 /\
  dense_of 3 [mkPair 2 fone; mkPair 0 (f_of_Z 3)] = [f_of_Z 3; fzero; fone].
Proof. split; vm_compute; reflexivity. Qed.
