(** C24-C28, C63 (densification seeds of minhash): densified_minhash. *)
From Verif.Model Require Import Minhash.
From Verif.Spec Require Import HashSpec.
From Verif.Proofs Require Import BaseProofs MinhashProofs.
From Coq Require Import Lia.

Definition gm : rng := {| rstream := fun n => 7 + 13 * Z.of_nat n; rpos := 0 |}.
Definition log2m : float64 -> float64 := fun _ => fone.
(** some hash function *)
Definition mhm : Z -> Z := fun i => 1000003 * i + 77.

(** C24.  GetMap returns n ids in [0,numHashes): the low bits of the hash of i, divided into
    numHashes equal ranges.  [mh i] is the seeded 64-bit hash of i, for an arbitrary function mh. *)
Theorem C24_minhash_map_in_range : forall log2 mh numHashes rp g m g' n,
  1 <= numHashes <= 2^53 -> 0 <= rp <= 52 -> 0 <= n <= 2^55 ->
  mn_New log2 mh numHashes rp g = (m, g') ->
  exists ids, mn_GetMap m n = Ok ids /\ Z.of_nat (length ids) = n /\
    (forall i, 0 <= i < n ->
       ids !! Z.to_nat i = Some ((mh i mod 2^rp) / ((2^rp + numHashes - 1) / numHashes))) /\
    Forall (fun b => 0 <= b < numHashes) ids.
Proof. exact mn_map. Qed.
Print Assumptions C24_minhash_map_in_range.

Example C24_example :
  mn_GetMap (mn_New log2m mhm 4 10 gm).1 6 = Ok [0; 2; 0; 3; 1; 3].
Proof. vm_compute. reflexivity. Qed.

(** C25.  Refuted: for every width of 64 or more all ids are MinInt64 and hashing any non-empty
    vector panics ... *)
Theorem C25_minhash_every_width_refuted : forall log2 mh numHashes rp g m g' n,
  1 <= numHashes <= 2^53 -> 64 <= rp -> 0 <= n <= 2^55 ->
  mn_New log2 mh numHashes rp g = (m, g') ->
  exists ids, mn_GetMap m n = Ok ids /\ ids = replicate (Z.to_nat n) minInt64 /\
    forall indices data, data <> [] -> length indices = length data ->
      exists p, mn_GetHash m indices data ids = Panic p.
Proof. exact mn_wide_refuted. Qed.
Print Assumptions C25_minhash_every_width_refuted.

(** ... and between 53 and 63 the conversion to float64 can round an id up to numHashes. *)
Theorem C25_minhash_rounding_refuted :
  exists log2 mh numHashes rp g m g' ids, numHashes = 1 /\ rp = 60 /\
    mn_New log2 mh numHashes rp g = (m, g') /\ mn_GetMap m 1 = Ok ids /\ ids = [1].
Proof. exact mn_round_refuted. Qed.
Print Assumptions C25_minhash_rounding_refuted.

(** What holds: for widths up to 52 every vector over [0,n) can be hashed with the ids of GetMap(n). *)
Theorem C25_minhash_every_width_partial : forall log2 mh numHashes rp g m g' n ids,
  1 <= numHashes <= 2^53 -> 0 <= rp <= 52 -> 0 <= n <= 2^55 ->
  0 <= int_of_f (log2 (f_of_Z numHashes)) <= 31 ->
  mn_New log2 mh numHashes rp g = (m, g') -> mn_GetMap m n = Ok ids ->
  forall indices data, length indices = length data -> Forall (fun ix => 0 <= ix < n) indices ->
    exists hs, mn_GetHash m indices data ids = Ok hs /\ Z.of_nat (length hs) = numHashes.
Proof. exact mn_narrow. Qed.
Print Assumptions C25_minhash_every_width_partial.

Example C25_example :
  (ids ← mn_GetMap (mn_New log2m mhm 4 10 gm).1 6;
   mn_GetHash (mn_New log2m mhm 4 10 gm).1 [5; 2] [fone; fone] ids) = Ok [2; 2; 2; 5].
Proof. vm_compute. reflexivity. Qed.

(** C26.  A bin with listed indices hashes to the largest of them.  An empty bin takes the hash of
    the first non-empty bin among its first 100 probes; if those are all empty, it takes the hash of
    probe 101 if that bin is not empty, else MinInt64. *)
Theorem C26_minhash_is_max_index : forall m indices data binIds,
  let H := dh_numHashes (mn_d m) in
  0 <= H -> 0 <= dh_logNumHash (mn_d m) <= 31 -> (length data <= length indices)%nat ->
  (forall ix, ix ∈ take (length data) indices -> 0 <= ix /\ exists b, binIds !! Z.to_nat ix = Some b /\ 0 <= b < H) ->
  exists hs, mn_GetHash m indices data binIds = Ok hs /\ Z.of_nat (length hs) = H /\
    let listed b ix := listed_in indices (length data) binIds b ix in
    let empty b := forall ix, ~ listed b ix in
    forall b, 0 <= b < H ->
      (~ empty b -> exists mx, hs !! Z.to_nat b = Some mx /\ listed b mx /\ forall ix, listed b ix -> ix <= mx) /\
      (empty b ->
         (exists b', 0 <= b' < H /\ borrows_from (mn_d m) empty b b' /\ hs !! Z.to_nat b = hs !! Z.to_nat b') \/
         (borrows_nothing (mn_d m) empty b /\
            (hs !! Z.to_nat b = Some minInt64 \/
             exists b', 0 <= b' < H /\ probes (mn_d m) b 101 b' /\ ~ empty b' /\
               hs !! Z.to_nat b = hs !! Z.to_nat b'))).
Proof. exact mn_hash_spec. Qed.
Print Assumptions C26_minhash_is_max_index.

Example C26_example :
  mn_GetHash mn_m3 [3; 0; 2; 1] [fone; fone; fone; fone] [0; 2; 0; 0] = Ok [3; 3; 1] /\
  mn_GetHash mn_m3 [] [] [0; 2; 0; 0] = Ok [minInt64; minInt64; minInt64].
Proof. split; vm_compute; reflexivity. Qed.

(** C27.  Refuted: the hash can differ from that of every choice of the topK largest entries ... *)
Theorem C27_minhash_easy_keeps_largest_refuted :
  exists m binIds data topK hs,
    1 <= topK <= Z.of_nat (length data) /\ Forall (fun v => is_nan v = false) data /\
    mn_GetHashEasyDense m binIds data [] topK = Ok hs /\
    forall kept vs, k_largest topK data kept -> length vs = length kept -> mn_GetHash m kept vs binIds <> Ok hs.
Proof. exact mn_easy_refuted. Qed.
Print Assumptions C27_minhash_easy_keeps_largest_refuted.

(** ... because the topK smallest entries are the ones that are hashed (here proved for every
    input): topK distinct positions, and no other position has a smaller value. *)
Theorem C27_minhash_easy_keeps_smallest_partial : forall m binIds data topK,
  0 <= topK <= Z.of_nat (length data) ->
  exists kept, NoDup kept /\ Z.of_nat (length kept) = topK /\
    (forall i, i ∈ kept -> 0 <= i < Z.of_nat (length data)) /\
    (Forall (fun v => is_nan v = false) data -> k_smallest topK data kept) /\
    forall spare vs, length vs = length kept ->
      mn_GetHashEasyDense m binIds data spare topK = mn_GetHash m kept vs binIds.
Proof. exact mn_easy_dense_kept. Qed.
Print Assumptions C27_minhash_easy_keeps_smallest_partial.

Example C27_example :
  mn_GetHashEasyDense mn_m3 [0; 1; 2; 0] [f_of_Z 4; fone; f_of_Z 3; f_of_Z 2] [] 2 = Ok [3; 1; 3] /\
  mn_GetHash mn_m3 [1; 3] [fone; fone] [0; 1; 2; 0] = Ok [3; 1; 3].
Proof. split; vm_compute; reflexivity. Qed.

(** C28.  The two easy variants agree, panics included. *)
Theorem C28_minhash_easy_variants_agree : forall m binIds data spare topK,
  mn_GetHashEasy m binIds data spare topK
  = mn_GetHashEasyDense m binIds (map iv_value data) (map iv_value spare) topK.
Proof. exact mn_easy_agree. Qed.
Print Assumptions C28_minhash_easy_variants_agree.

(** When they panic (for data without spare capacity): topK out of range, or bin ids out of range. *)
Theorem C28_minhash_easy_panics : forall m binIds data topK,
  let H := dh_numHashes (mn_d m) in
  0 <= H -> 0 <= dh_logNumHash (mn_d m) <= 31 ->
  ((topK < 0 \/ Z.of_nat (length data) < topK) -> exists p, mn_GetHashEasyDense m binIds data [] topK = Panic p) /\
  (0 <= topK <= Z.of_nat (length data) ->
   (forall i, 0 <= i < Z.of_nat (length data) -> exists b, binIds !! Z.to_nat i = Some b /\ 0 <= b < H) ->
   exists hs, mn_GetHashEasyDense m binIds data [] topK = Ok hs /\ Z.of_nat (length hs) = H) /\
  (1 <= topK <= Z.of_nat (length data) ->
   (forall i, 0 <= i < Z.of_nat (length data) -> forall b, binIds !! Z.to_nat i = Some b -> b < 0 \/ H <= b) ->
   exists p, mn_GetHashEasyDense m binIds data [] topK = Panic p).
Proof. exact mn_easy_panics. Qed.
Print Assumptions C28_minhash_easy_panics.

Example C28_example :
  mn_GetHashEasy mn_m3 [0; 1; 2; 0] [mkPair 9 (f_of_Z 4); mkPair 5 fone] [] 1 = Ok [minInt64; 1; minInt64] /\
  mn_GetHashEasyDense mn_m3 [0; 1; 2; 0] [f_of_Z 4; fone] [] 1 = Ok [minInt64; 1; minInt64] /\
  mn_GetHashEasyDense mn_m3 [0; 1; 2; 0] [f_of_Z 4; fone] [] 3 = Panic PSlice.
Proof. repeat split; vm_compute; reflexivity. Qed.

(** C63 (part): the seeds of the densification hash are odd and positive. *)
Theorem C63_minhash_seeds_positive_odd : forall log2 mh numHashes n g m g',
  mn_New log2 mh numHashes n g = (m, g') ->
  Forall (fun r => 0 < r <= maxInt64 /\ Z.odd r = true)
    [fst (dh_randHash (mn_d m)); snd (dh_randHash (mn_d m)); dh_randa (mn_d m)].
Proof. exact mn_seeds. Qed.
Print Assumptions C63_minhash_seeds_positive_odd.

Example C63_minhash_example : dh_randHash (mn_d (mn_New log2m mhm 4 10 gm).1) = (7, 21).
Proof. reflexivity. Qed.
