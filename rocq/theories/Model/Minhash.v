(** Model of densified_minhash/densified_minhash.go and index_value_pairs.go. *)
From Verif.Model Require Export Densify GoHeap.

(** type indexValuePair — densified_minhash/index_value_pairs.go:9-12; Less is ">" on the
    values — index_value_pairs.go:22-25 *)
Record QPair := mkQ { q_index : Z; q_value : float64 }.
Definition q_less (a b : QPair) : bool := fgtb (q_value a) (q_value b).

(** DensifiedMinhash is [DHash] plus the maphash seed: [mh] maps an integer to the 64-bit
    hash of its varint encoding under that seed — densified_minhash.go:216-219. *)
Record Minhash := mkMinhash { mn_d : DHash; mn_mh : Z -> Z }.

(** New — densified_minhash.go:27-39 *)
Definition mn_New (log2 : float64 -> float64) (mh : Z -> Z) (numHashes n : Z) (g : rng) : Minhash * rng :=
  let '(d, g) := dh_New log2 numHashes n g in
  ({| mn_d := d; mn_mh := mh |}, g).

(** Densification — densified_minhash.go:60-76, 117-133, 175-191: a failed search keeps
    whatever the last probe read. *)
Definition mn_densify (m : Minhash) (hashes : list Z) : res (list Z) :=
  densify (mn_d m) (fun h => h =? minInt64) (fun h => h) hashes.

(** if hashes[binId] < index { hashes[binId] = index } — densified_minhash.go:54-57, 111-114, 169-172 *)
Definition mn_put (binIds : list Z) (hashes : list Z) (index : Z) : res (list Z) :=
  binId ← sget binIds index;
  h ← sget hashes binId;
  if h <? index then sset hashes binId index else Ok hashes.

(** GetHash — densified_minhash.go:41-79; only the length of data matters. *)
Definition mn_GetHash (m : Minhash) (indices : list Z) (data : list float64) (binIds : list Z) : res (list Z) :=
  hashes ← make_slice minInt64 (dh_numHashes (mn_d m));
  hashes ← foldM (fun hashes i => ix ← sget indices i; mn_put binIds hashes ix)
             hashes (seqZ 0 (Z.of_nat (length data)));
  mn_densify m hashes.

(** data[0:topK], where [spare] are the elements between len(data) and cap(data) *)
Definition slice_to {A} (data spare : list A) (topK : Z) : res (list A) :=
  if (topK <? 0) || (Z.of_nat (length (data ++ spare)) <? topK) then Panic PSlice
  else Ok (take (Z.to_nat topK) (data ++ spare)).

(** Hash the kept entries — densified_minhash.go:101-133, 159-191 (identical in both) *)
Definition mn_hash_kept (m : Minhash) (binIds : list Z) (pq : list QPair) (topK : Z) : res (list Z) :=
  hashes ← make_slice minInt64 (dh_numHashes (mn_d m));
  '(hashes, _) ← foldM (fun '(hashes, pq) (_ : Z) =>
        '(x, pq) ← h_pop_last pq;
        hashes ← mn_put binIds hashes (q_index x);
        Ok (hashes, pq)) (hashes, pq) (seqZ 0 topK);
  mn_densify m hashes.

(** GetHashEasy — densified_minhash.go:81-136; the queue is built by lines 89-99 *)
Definition mn_heap_pairs (data spare : list Pair) (topK : Z) : res (list QPair) :=
  pq ← make_slice (mkQ 0 fzero) topK;
  first ← slice_to data spare topK;
  pq ← foldM (fun pq '(index, value) => sset pq index (mkQ index (iv_value value))) pq (indexed first);
  pq ← h_Init q_less pq;
  foldM (fun pq index =>
      d ← sget data index;
      pq ← h_Push q_less pq (mkQ index (iv_value d));
      '(_, pq) ← h_Pop q_less pq;
      Ok pq) pq (seqZ topK (Z.of_nat (length data) - topK)).

Definition mn_GetHashEasy (m : Minhash) (binIds : list Z) (data spare : list Pair) (topK : Z) : res (list Z) :=
  pq ← mn_heap_pairs data spare topK;
  mn_hash_kept m binIds pq topK.

(** GetHashEasyDense — densified_minhash.go:139-194; the queue is built by lines 147-157 *)
Definition mn_heap_dense (data spare : list float64) (topK : Z) : res (list QPair) :=
  pq ← make_slice (mkQ 0 fzero) topK;
  first ← slice_to data spare topK;
  pq ← foldM (fun pq '(index, value) => sset pq index (mkQ index value)) pq (indexed first);
  pq ← h_Init q_less pq;
  foldM (fun pq index =>
      v ← sget data index;
      pq ← h_Push q_less pq (mkQ index v);
      '(_, pq) ← h_Pop q_less pq;
      Ok pq) pq (seqZ topK (Z.of_nat (length data) - topK)).

Definition mn_GetHashEasyDense (m : Minhash) (binIds : list Z) (data spare : list float64) (topK : Z) : res (list Z) :=
  pq ← mn_heap_dense data spare topK;
  mn_hash_kept m binIds pq topK.

(** binSize of GetMap — densified_minhash.go:204-208 *)
Definition mn_binSize (rangePow numHashes : Z) : res Z :=
  rng ← int_pow2 rangePow;
  Ok (int_ceil (fdiv (f_of_Z rng) (f_of_Z numHashes))).

(** GetMap — densified_minhash.go:201-226.  binary.PutVarint into the 8-byte buffer panics
    when the zig-zag encoding needs more than 8 bytes (i >= 2^55). *)
Definition mn_GetMap (m : Minhash) (n : Z) : res (list Z) :=
  binIds ← make_slice 0 n;
  binSize ← mn_binSize (dh_rangePow (mn_d m)) (dh_numHashes (mn_d m));
  mapM_res (fun i =>
      if 2^55 <=? i then Panic PIndex
      else
        one ← shl64 1 (dh_rangePow (mn_d m));
        let curHash := Z.land (u64 (mn_mh m i)) (u64 (one - 1)) in
        Ok (int_floor (fdiv (f_of_Z curHash) (f_of_Z binSize))))
    (seqZ 0 (Z.of_nat (length binIds))).
