(** C18-C23, C63 (densification seeds of DWTA): densified_wta_hash. *)
From Verif.Model Require Import Dwta.
From Verif.Spec Require Import HashSpec.
From Verif.Proofs Require Import BaseProofs FloatOrder WtaProofs DensifyProofs DwtaProofs.
From Coq Require Import Lia.

Definition gd : rng := {| rstream := fun n => 5 + 11 * Z.of_nat n; rpos := 0 |}.
(** An oracle for math.Log2 good enough for the examples. *)
Definition log2ex : float64 -> float64 := fun _ => fone.

(** C18.  Every bin has exactly one table cell for each of its 8 positions.  (Cell (p, f) belongs
    to permutation p and feature f.) *)
Theorem C18_dwta_bins_have_eight_slots : forall log2 numHashes n g,
  0 <= numHashes -> 8 * numHashes < 2^53 -> 0 < n <= 2^53 ->
  exists dw g', dwta_New log2 numHashes n g = Ok (dw, g') /\
    dw_permute dw = (8 * numHashes + n - 1) / n /\
    forall b q, 0 <= b < numHashes -> 0 <= q < 8 ->
    exists p f, 0 <= p < dw_permute dw /\ 0 <= f < n /\
      dw_indices dw !! Z.to_nat (p * n + f) = Some b /\ dw_pos dw !! Z.to_nat (p * n + f) = Some q /\
      forall p' f', 0 <= p' < dw_permute dw -> 0 <= f' < n ->
        dw_indices dw !! Z.to_nat (p' * n + f') = Some b -> dw_pos dw !! Z.to_nat (p' * n + f') = Some q ->
        p' = p /\ f' = f.
Proof. exact dwta_tables. Qed.
Print Assumptions C18_dwta_bins_have_eight_slots.

Example C18_example :
  ('(dw, _) ← dwta_New log2ex 2 3 gd; Ok (take 9 (dw_indices dw), take 9 (dw_pos dw)))
  = Ok ([0;0;0;0;0;0;0;0;1], [1;0;2;3;5;4;7;6;0]).
Proof. vm_compute; reflexivity. Qed.

(** C19.  On a dense vector the hash of a bin is the position of its first greatest entry; a bin's
    entries are its 8 positions. *)
Theorem C19_dwta_dense_hash_is_winner_position : forall log2 numHashes n g dw g' data topK,
  0 <= numHashes -> 8 * numHashes < 2^53 -> 0 < n <= 2^53 ->
  0 <= int_of_f (log2 (f_of_Z numHashes)) <= 31 ->
  dwta_New log2 numHashes n g = Ok (dw, g') -> Z.of_nat (length data) = n ->
  exists hs, dwta_GetHashEasy dw data topK = Ok hs /\
    forall b, 0 <= b < numHashes ->
      let entries := bin_entries (dw_indices dw) (dw_pos dw) (dw_permute dw) n data b in
      entries.*1 ≡ₚ seqZ 0 8 /\
      forall q h v, first_max (f_of_Z (- 2^63)) entries.*2 q -> entries !! q = Some (h, v) ->
        hs !! Z.to_nat b = Some h.
Proof. exact dwta_easy_winner. Qed.
Print Assumptions C19_dwta_dense_hash_is_winner_position.

Example C19_example :
  ('(dw, _) ← dwta_New log2ex 2 3 gd;
   let es := bin_entries (dw_indices dw) (dw_pos dw) (dw_permute dw) 3 [fone; f_of_Z 4; fzero] 0 in
   hs ← dwta_GetHashEasy dw [fone; f_of_Z 4; fzero] 0; Ok (es.*1, es.*2 !! 1%nat, hs))
  = Ok ([1;0;2;3;5;4;7;6], Some (f_of_Z 4), [0; 2]) /\
  0 <= int_of_f (log2ex (f_of_Z 2)) <= 31.
Proof. split; [vm_compute; reflexivity|vm_compute; done]. Qed.

(** C20.  numHashes digits in [0,8), no panic, for every vector of at most n values. *)
Theorem C20_dwta_hashes_are_digits : forall log2 numHashes n g dw g',
  0 <= numHashes -> 8 * numHashes < 2^53 -> 0 < n <= 2^53 ->
  0 <= int_of_f (log2 (f_of_Z numHashes)) <= 31 ->
  dwta_New log2 numHashes n g = Ok (dw, g') ->
  (forall pairs, Z.of_nat (length pairs) <= n ->
     exists hs, dwta_GetHash dw pairs = Ok hs /\ Z.of_nat (length hs) = numHashes /\
       Forall (fun h => 0 <= h < 8) hs) /\
  (forall data topK, Z.of_nat (length data) <= n ->
     exists hs, dwta_GetHashEasy dw data topK = Ok hs /\ Z.of_nat (length hs) = numHashes /\
       Forall (fun h => 0 <= h < 8) hs).
Proof. exact dwta_digits. Qed.
Print Assumptions C20_dwta_hashes_are_digits.

Example C20_example :
  ('(dw, _) ← dwta_New log2ex 3 3 gd; hs ← dwta_GetHash dw [mkPair 7 fnan]; hs' ← dwta_GetHashEasy dw [] 5; Ok (hs, hs'))
  = Ok ([1; 1; 3], [0; 0; 0]).
Proof. vm_compute; reflexivity. Qed.

(** C21.  A non-empty bin keeps its own winner; an empty bin takes the hash of the first non-empty bin
    among its first 100 probes, or 0 if they are all empty. *)
Theorem C21_dwta_densification : forall log2 numHashes n g dw g' pairs hs,
  0 <= numHashes -> 8 * numHashes < 2^53 -> 0 < n <= 2^53 ->
  0 <= int_of_f (log2 (f_of_Z numHashes)) <= 31 ->
  dwta_New log2 numHashes n g = Ok (dw, g') -> Z.of_nat (length pairs) <= n ->
  dwta_GetHash dw pairs = Ok hs ->
  let entries b := bin_entries (dw_indices dw) (dw_pos dw) (dw_permute dw) n (map iv_value pairs) b in
  let empty b := entries b = [] in
  forall b, 0 <= b < numHashes ->
    (~ empty b -> exists q h v, sticky_max (entries b).*2 q /\ entries b !! q = Some (h, v) /\
        hs !! Z.to_nat b = Some h) /\
    (empty b ->
       (exists b', 0 <= b' < numHashes /\ borrows_from (dw_d dw) empty b b' /\
          hs !! Z.to_nat b = hs !! Z.to_nat b') \/
       (borrows_nothing (dw_d dw) empty b /\ hs !! Z.to_nat b = Some 0)).
Proof. exact dwta_borrow. Qed.
Print Assumptions C21_dwta_densification.

Theorem C21_dwta_densification_easy : forall log2 numHashes n g dw g' data topK hs,
  0 <= numHashes -> 8 * numHashes < 2^53 -> 0 < n <= 2^53 ->
  0 <= int_of_f (log2 (f_of_Z numHashes)) <= 31 ->
  dwta_New log2 numHashes n g = Ok (dw, g') -> Z.of_nat (length data) <= n ->
  dwta_GetHashEasy dw data topK = Ok hs ->
  let entries b := bin_entries (dw_indices dw) (dw_pos dw) (dw_permute dw) n data b in
  let empty b := none_above (f_of_Z (- 2^63)) (entries b).*2 in
  forall b, 0 <= b < numHashes ->
    empty b ->
       (exists b', 0 <= b' < numHashes /\ borrows_from (dw_d dw) empty b b' /\
          hs !! Z.to_nat b = hs !! Z.to_nat b') \/
       (borrows_nothing (dw_d dw) empty b /\ hs !! Z.to_nat b = Some 0).
Proof. exact dwta_borrow_easy. Qed.
Print Assumptions C21_dwta_densification_easy.

(** Bin 1 of this table has no entry, and borrows from bin 0. *)
Example C21_example :
  ('(dw, _) ← dwta_New log2ex 2 18 gd;
   let es b := bin_entries (dw_indices dw) (dw_pos dw) (dw_permute dw) 18 [fone; f_of_Z 4] b in
   hs ← dwta_GetHash dw [mkPair 9 fone; mkPair 3 (f_of_Z 4)];
   ix ← probe_index (dw_d dw) 1 1; Ok (es 0, es 1, ix, hs))
  = Ok ([(6, fone); (1, f_of_Z 4)], [], 0, [1; 1]).
Proof. vm_compute. reflexivity. Qed.

(** C22.  Refuted: the hash does not depend on the feature indices at all ... *)
Theorem C22_dwta_sparse_honours_indices_refuted :
  exists log2 numHashes n g dw g' pairs hs hs',
    dwta_New log2 numHashes n g = Ok (dw, g') /\
    0 <= int_of_f (log2 (f_of_Z numHashes)) <= 31 /\
    NoDup (map iv_index pairs) /\ Forall (fun p => 0 <= iv_index p < n) pairs /\
    Forall (fun p => fltb (f_of_Z (- 2^63)) (iv_value p) = true) pairs /\
    Z.of_nat (length pairs) = n /\
    dwta_GetHash dw pairs = Ok hs /\ dwta_GetHashEasy dw (dense_of n pairs) 0 = Ok hs' /\ hs <> hs'.
Proof. exact dwta_sparse_refuted. Qed.
Print Assumptions C22_dwta_sparse_honours_indices_refuted.

Theorem C22_dwta_ignores_indices_refuted : forall dw pairs pairs',
  map iv_value pairs = map iv_value pairs' -> dwta_GetHash dw pairs = dwta_GetHash dw pairs'.
Proof. exact dwta_GetHash_values. Qed.
Print Assumptions C22_dwta_ignores_indices_refuted.

(** ... what holds: pairs listing all features in order, with values > -2^63, hash like the dense
    vector.  Missing: pairs with absent or unordered features. *)
Theorem C22_dwta_sparse_honours_indices_partial : forall log2 numHashes n g dw g' pairs topK,
  0 <= numHashes -> 8 * numHashes < 2^53 -> 0 < n <= 2^53 ->
  0 <= int_of_f (log2 (f_of_Z numHashes)) <= 31 ->
  dwta_New log2 numHashes n g = Ok (dw, g') ->
  map iv_index pairs = seqZ 0 n ->
  Forall (fun p => fltb (f_of_Z (- 2^63)) (iv_value p) = true) pairs ->
  dwta_GetHash dw pairs = dwta_GetHashEasy dw (dense_of n pairs) topK.
Proof. exact dwta_sparse_full. Qed.
Print Assumptions C22_dwta_sparse_honours_indices_partial.

Example C22_example :
  map iv_index [mkPair 0 fone; mkPair 1 (fneg fone)] = seqZ 0 2 /\
  Forall (fun p => fltb fMinInt64 (iv_value p) = true) [mkPair 0 fone; mkPair 1 (fneg fone)].
Proof. split; [reflexivity|repeat constructor]. Qed.

(** C23.  Refuted for every number of hashes: with some random source, all probes of all bins look at
    the last bin only. *)
Theorem C23_probes_reach_every_bin_refuted :
  exists g, forall log2 numHashes n,
    2 <= numHashes <= 2^31 -> 0 < n <= 2^53 -> 0 <= int_of_f (log2 (f_of_Z numHashes)) <= 31 ->
    exists dw g', dwta_New log2 numHashes n g = Ok (dw, g') /\
      forall b c, 0 <= b < numHashes -> 1 <= c <= 101 -> probes (dw_d dw) b c (numHashes - 1).
Proof. exact dwta_stuck_refuted. Qed.
Print Assumptions C23_probes_reach_every_bin_refuted.

(** What holds: probes always look at an existing bin. *)
Theorem C23_probes_in_range_partial : forall d b c,
  0 <= dh_logNumHash d <= 31 -> 1 <= dh_numHashes d ->
  exists ix, probes d b c ix /\ 0 <= ix < dh_numHashes d.
Proof. exact probe_in_range. Qed.
Print Assumptions C23_probes_in_range_partial.

Example C23_example : probes {| dh_randHash := (3, 5); dh_randa := 7; dh_numHashes := 4; dh_rangePow := 9; dh_logNumHash := 2 |} 0 1 0.
Proof. exists 0. split; [vm_compute; reflexivity|reflexivity]. Qed.

(** C63 (part): the seeds of the densification hash are odd and positive. *)
Theorem C63_dwta_seeds_positive_odd : forall log2 numHashes n g dw g',
  0 <= numHashes -> 8 * numHashes < 2^53 -> 0 < n <= 2^53 ->
  dwta_New log2 numHashes n g = Ok (dw, g') ->
  Forall (fun r => 0 < r <= maxInt64 /\ Z.odd r = true)
    [fst (dh_randHash (dw_d dw)); snd (dh_randHash (dw_d dw)); dh_randa (dw_d dw)].
Proof. exact dwta_seeds. Qed.
Print Assumptions C63_dwta_seeds_positive_odd.
