(** Model of wta_hash/wta_hash.go. *)
From Verif.Model Require Export IndexValue.

(** binSize — wta_hash/wta_hash.go:23 *)
Definition wta_binSize : Z := 8.

(** type WtaHash — wta_hash/wta_hash.go:25-29 *)
Record WtaHash := mkWta { wta_indices : list Z; wta_numHashes : Z; wta_rangePow : Z }.

(** permute — wta_hash/wta_hash.go:34-35 and densified_wta_hash/densified_wta_hash.go:39-40:
    int(math.Ceil(float64(numHashes) * float64(binSize) / float64(numOfBitsToHash))) *)
Definition wta_permute (numHashes n : Z) : Z :=
  int_ceil (fdiv (fmul (f_of_Z numHashes) (f_of_Z wta_binSize)) (f_of_Z n)).

(** One iteration of the shuffle loop — wta_hash/wta_hash.go:47-53 *)
Definition wta_shuffle_step (n : Z) (st : list Z * list Z * rng) (p : Z) : res (list Z * list Z * rng) :=
  let '(nArray, indices, g) := st in
  let '(nArray, g) := shuffle nArray g in
  let firstIndex := wrap64 (p * n) in
  let lastIndex := wrap64 (firstIndex + n) in
  indices ← copy_range indices firstIndex lastIndex nArray;
  Ok (nArray, indices, g).

(** New — wta_hash/wta_hash.go:31-60.  rand.Seed has no effect on an arbitrary stream. *)
Definition wta_New (numHashes n : Z) (g : rng) : res (WtaHash * rng) :=
  let permute := wta_permute numHashes n in
  nArray ← make_slice 0 n;
  indices ← make_slice 0 (wrap64 (n * permute));
  let nArray := seqZ 0 (Z.of_nat (length nArray)) in
  '(_, indices, g) ← foldM (wta_shuffle_step n) (nArray, indices, g) (seqZ 0 permute);
  Ok ({| wta_indices := indices; wta_numHashes := numHashes; wta_rangePow := n |}, g).

(** The hash of bin [i] — loop body of GetHash (wta_hash/wta_hash.go:71-83) and of
    GetHashDense (98-110), which differ only in how a value is read ([get]). *)
Definition wta_bin (t : WtaHash) (get : Z -> res float64) (i : Z) : res Z :=
  '(h, _) ← foldM (fun '(h, v) j =>
        curIndex ← sget (wta_indices t) (i * wta_binSize + j);
        value ← get curIndex;
        Ok (if fltb v value then (curIndex, value) else (h, v)))
      (minInt64, fMinInt64) (seqZ 0 wta_binSize);
  Ok h.

Definition wta_hashes (t : WtaHash) (get : Z -> res float64) : res (list Z) :=
  hashes ← make_slice 0 (wta_numHashes t);
  mapM_res (wta_bin t get) (seqZ 0 (Z.of_nat (length hashes))).

(** GetHash — wta_hash/wta_hash.go:62-86: reads data[curIndex].Value, ignoring Index. *)
Definition wta_GetHash (t : WtaHash) (data : list Pair) : res (list Z) :=
  wta_hashes t (fun c => p ← sget data c; Ok (iv_value p)).

(** GetHashDense — wta_hash/wta_hash.go:89-113 *)
Definition wta_GetHashDense (t : WtaHash) (data : list float64) : res (list Z) :=
  wta_hashes t (fun c => sget data c).
