(** Model of bucket/bucket.go (array-backed bucket, not used by lsh). *)
From Verif.Model Require Export Base.

(** bucketSize — bucket/bucket.go:9.  The constant [fifo] (line 10) is true, so the
    reservoir-sampling branch of Add (lines 48-65) is dead code and is not modelled. *)
Definition bk_bucketSize : Z := 128.

(** resetArr — bucket/bucket.go:12 *)
Definition bk_resetArr : list Z := replicate (Z.to_nat bk_bucketSize) 0.

(** type Bucket — bucket/bucket.go:14-19 *)
Record Bucket := mkBucket { bk_arr : list Z; bk_isInit : Z; bk_index : Z; bk_counts : Z }.

(** New — bucket/bucket.go:21-28 *)
Definition bk_New : Bucket :=
  {| bk_arr := replicate (Z.to_nat bk_bucketSize) 0; bk_isInit := -1; bk_index := 0; bk_counts := 0 |}.

(** Reset — bucket/bucket.go:30-35 *)
Definition bk_Reset (b : Bucket) : Bucket :=
  {| bk_arr := go_copy (bk_arr b) bk_resetArr; bk_isInit := -1; bk_index := 0; bk_counts := 0 |}.

(** GetSize — bucket/bucket.go:37-39 *)
Definition bk_GetSize (b : Bucket) : Z := bk_counts b.

(** Add (FIFO branch) — bucket/bucket.go:41-47 *)
Definition bk_Add (b : Bucket) (id : Z) : res (Z * Bucket) :=
  let index := Z.land (bk_counts b) (bk_bucketSize - 1) in
  arr ← sset (bk_arr b) index id;
  Ok (index, {| bk_arr := arr; bk_isInit := wrap64 (bk_isInit b + 1);
                bk_index := bk_index b; bk_counts := wrap64 (bk_counts b + 1) |}).

(** Retrieve — bucket/bucket.go:68-73 *)
Definition bk_Retrieve (b : Bucket) (index : Z) : res Z :=
  if bk_bucketSize <=? index then Ok (-1) else sget (bk_arr b) index.

(** GetAll — bucket/bucket.go:75-83.  Returns nil ([None]) or the array, and writes the
    -1 sentinel into the bucket. *)
Definition bk_GetAll (b : Bucket) : res (option (list Z) * Bucket) :=
  if bk_isInit b =? -1 then Ok (None, b)
  else
    arr ← (if bk_counts b <? bk_bucketSize then sset (bk_arr b) (bk_counts b) (-1)
           else Ok (bk_arr b));
    Ok (Some arr, {| bk_arr := arr; bk_isInit := bk_isInit b;
                     bk_index := bk_index b; bk_counts := bk_counts b |}).

(** Histories. *)
Inductive bk_op := BAdd (id : Z) | BReset | BGetAll.

Definition bk_step (b : Bucket) (o : bk_op) : res Bucket :=
  match o with
  | BAdd id => '(_, b') ← bk_Add b id; Ok b'
  | BReset => Ok (bk_Reset b)
  | BGetAll => '(_, b') ← bk_GetAll b; Ok b'
  end.

Definition bk_run (b : Bucket) (ops : list bk_op) : res Bucket := foldM bk_step b ops.
