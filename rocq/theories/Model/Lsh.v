(** Model of lsh/lsh.go. *)
From Verif.Model Require Export Base Fifo Config.

(** binSize, logBinSize — lsh/lsh.go:15-17.  logBinSize is
    int(math.Floor(math.Log(8))) = floor(2.0794...) = 2 (natural logarithm). *)
Definition logBinSize : Z := 2.

(** type LSH — lsh/lsh.go:19-25.  Bucket pointers are owned by the table (never shared),
    so buckets are stored by value. *)
Record LSH := mkLSH {
  lsh_buckets : list (list FifoBucket);
  lsh_k : Z; lsh_l : Z; lsh_rangePow : Z;
  lsh_rand1 : list Z
}.

(** New — lsh/lsh.go:27-53.  (Exhausting memory is not modelled.) *)
Definition lsh_New (k l rangePow : Z) (g : rng) : res (LSH * rng) :=
  rows ← make_slice tt l;
  buckets ← mapM_res (fun _ =>
      size ← int_pow2 rangePow;
      make_slice fifo_New size) rows;
  rand1 ← make_slice 0 (wrap64 (k * l));
  let '(rs, g') := oddRandoms (length rand1) g in
  Ok ({| lsh_buckets := buckets; lsh_k := k; lsh_l := l;
         lsh_rangePow := rangePow; lsh_rand1 := rs |}, g').

(** Clear — lsh/lsh.go:55-61 *)
Definition lsh_Clear (t : LSH) : LSH :=
  {| lsh_buckets := map (map fifo_Reset) (lsh_buckets t);
     lsh_k := lsh_k t; lsh_l := lsh_l t; lsh_rangePow := lsh_rangePow t;
     lsh_rand1 := lsh_rand1 t |}.

(** Body of the inner loop of HashesToIndex — lsh/lsh.go:71-86.  [hf] is
    configuration.Global.HashFunction. *)
Definition hash_digit (hf : HashFunctionType) (t : LSH) (hashes : list Z) (i : Z)
    (index : Z) (j : Z) : res Z :=
  match hf with
  | WtaHashFunction | DensifiedWtaHashFunction =>
      h ← sget hashes (lsh_k t * i + j);
      sh ← shl64 (u64 h) ((lsh_k t - 1 - j) * logBinSize);
      Ok (u64 (index + sh))
  | DensifiedMinhashFunction =>
      r ← sget (lsh_rand1 t) (lsh_k t * i + j);
      let randVal := u64 r in
      let h := u64 (randVal * randVal) in
      let h := Z.lxor h (Z.shiftr h 13) in
      let h := Z.lxor h randVal in
      x ← sget hashes (lsh_k t * i + j);
      Ok (u64 (index + u64 (h * u64 x)))
  | SparseRandomProjectionHashFunction =>
      h ← sget hashes (lsh_k t * i + j);
      sh ← shl64 (u64 h) (lsh_k t - 1 - j);
      Ok (u64 (index + sh))
  | HashOther => Ok index
  end.

(** Index of table [i] — lsh/lsh.go:69-92 *)
Definition table_index (hf : HashFunctionType) (t : LSH) (hashes : list Z) (i : Z) : res Z :=
  index ← foldM (hash_digit hf t hashes i) 0 (seqZ 0 (lsh_k t));
  index ← match hf with
          | DensifiedMinhashFunction =>
              p ← shl64 1 (lsh_rangePow t);
              Ok (Z.land index (u64 (p - 1)))
          | _ => Ok index
          end;
  Ok (wrap64 index).

(** HashesToIndex — lsh/lsh.go:63-96 *)
Definition lsh_HashesToIndex (hf : HashFunctionType) (t : LSH) (hashes : list Z) : res (list Z) :=
  indices ← make_slice 0 (lsh_l t);
  mapM_res (table_index hf t hashes) (seqZ 0 (Z.of_nat (length indices))).

(** lsh.buckets[tableId][index].Add(id) — lsh/lsh.go:101, 107 *)
Definition lsh_addAt (t : LSH) (tableId index id : Z) : res (Z * LSH) :=
  row ← sget (lsh_buckets t) tableId;
  b ← sget row index;
  '(r, b') ← fifo_Add b id;
  row' ← sset row index b';
  bs' ← sset (lsh_buckets t) tableId row';
  Ok (r, {| lsh_buckets := bs'; lsh_k := lsh_k t; lsh_l := lsh_l t;
            lsh_rangePow := lsh_rangePow t; lsh_rand1 := lsh_rand1 t |}).

(** Add — lsh/lsh.go:98-104 *)
Definition lsh_Add (t : LSH) (indices : list Z) (id : Z) : res (list Z * LSH) :=
  secondIndices ← make_slice 0 (lsh_l t);
  foldM (fun '(acc, t) i =>
           index ← sget indices i;
           '(r, t') ← lsh_addAt t i index id;
           Ok (acc ++ [r], t'))
        ([], t) (seqZ 0 (Z.of_nat (length secondIndices))).

(** AddSingle — lsh/lsh.go:106-108 *)
Definition lsh_AddSingle (t : LSH) (tableId index id : Z) : res (Z * LSH) :=
  lsh_addAt t tableId index id.

(** RetrieveRaw — lsh/lsh.go:111-117.  The returned slices are read immediately by all
    callers, so contents are returned instead of slice headers (their aliasing is
    described by Model/Fifo.v). *)
Definition lsh_RetrieveRaw (t : LSH) (indices : list Z) : res (list (list Z)) :=
  rawResults ← make_slice (@nil Z) (lsh_l t);
  mapM_res (fun i =>
     row ← sget (lsh_buckets t) i;
     index ← sget indices i;
     b ← sget row index;
     Ok (fifo_contents b)) (seqZ 0 (Z.of_nat (length rawResults))).

(** Retrieve — lsh/lsh.go:119-121 *)
Definition lsh_Retrieve (t : LSH) (table index bucket : Z) : res Z :=
  row ← sget (lsh_buckets t) table;
  b ← sget row index;
  fifo_Retrieve b bucket.

(** Histories of mutating calls. *)
Inductive lsh_op :=
  | LAdd (indices : list Z) (id : Z)
  | LAddSingle (table index id : Z)
  | LClear.

Definition lsh_step (t : LSH) (o : lsh_op) : res LSH :=
  match o with
  | LAdd indices id => '(_, t') ← lsh_Add t indices id; Ok t'
  | LAddSingle table index id => '(_, t') ← lsh_AddSingle t table index id; Ok t'
  | LClear => Ok (lsh_Clear t)
  end.

Definition lsh_run (t : LSH) (ops : list lsh_op) : res LSH := foldM lsh_step t ops.
