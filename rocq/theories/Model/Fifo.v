(** Model of bucket/fifo/fifo.go. *)
From Verif.Model Require Export Base.

(** bucketSize, bitMask — bucket/fifo/fifo.go:7-10 *)
Definition fifo_bucketSize : Z := 128.
Definition fifo_bitMask : Z := fifo_bucketSize - 1.

(** type FifoBucket — bucket/fifo/fifo.go:12-15.
    The slice field is modelled by its backing array [fb_arr] (length = cap) and its
    length [fb_len], so that the aliasing of the slice returned by GetAll is visible.
    [fb_count] is a 64-bit int. *)
Record FifoBucket := mkFifo { fb_arr : list Z; fb_len : nat; fb_count : Z }.

(** The slice header b.slice as seen by a client: same backing array, length [view_len]. *)
Record view := mkView { view_len : nat }.

(** Reading a slice header: the first [view_len] cells of the (shared) backing array. *)
Definition view_read (b : FifoBucket) (v : view) : list Z := take (view_len v) (fb_arr b).

(** New — bucket/fifo/fifo.go:17-22: make([]int, 0, bucketSize) *)
Definition fifo_New : FifoBucket :=
  {| fb_arr := replicate (Z.to_nat fifo_bucketSize) 0; fb_len := 0; fb_count := 0 |}.

(** Reset — bucket/fifo/fifo.go:24-27: b.slice = b.slice[:0] keeps the backing array. *)
Definition fifo_Reset (b : FifoBucket) : FifoBucket :=
  {| fb_arr := fb_arr b; fb_len := 0; fb_count := 0 |}.

(** append(b.slice, id): in place when there is capacity left, otherwise Go copies to a
    new array (the contents beyond the new element are irrelevant and not modelled). *)
Definition fifo_append (b : FifoBucket) (id : Z) : list Z * nat :=
  if decide (fb_len b < length (fb_arr b))%nat
  then (<[fb_len b := id]> (fb_arr b), S (fb_len b))
  else (take (fb_len b) (fb_arr b) ++ [id], S (fb_len b)).

(** Add — bucket/fifo/fifo.go:29-40 *)
Definition fifo_Add (b : FifoBucket) (id : Z) : res (Z * FifoBucket) :=
  let index := Z.of_nat (fb_len b) in
  if index =? fifo_bucketSize then
    let index := Z.land (fb_count b) fifo_bitMask in
    (* b.slice[index] = id : bounds are those of the slice, the write goes to the array *)
    if (0 <=? index) && (index <? Z.of_nat (fb_len b)) then
      Ok (index, {| fb_arr := <[Z.to_nat index := id]> (fb_arr b);
                    fb_len := fb_len b;
                    fb_count := wrap64 (fb_count b + 1) |})
    else Panic PIndex
  else
    let '(arr, len) := fifo_append b id in
    Ok (index, {| fb_arr := arr; fb_len := len; fb_count := wrap64 (fb_count b + 1) |}).

(** Retrieve — bucket/fifo/fifo.go:42-50 *)
Definition fifo_Retrieve (b : FifoBucket) (index : Z) : res Z :=
  if fifo_bucketSize <=? index then Ok (-1)
  else if Z.of_nat (fb_len b) <=? index then Ok 0
  else sget (take (fb_len b) (fb_arr b)) index.

(** GetAll — bucket/fifo/fifo.go:52-54: returns the slice header itself. *)
Definition fifo_GetAll (b : FifoBucket) : view := {| view_len := fb_len b |}.

(** The contents of the slice returned by GetAll, read at once. *)
Definition fifo_contents (b : FifoBucket) : list Z := view_read b (fifo_GetAll b).

(** Histories of mutating calls (GetAll and Retrieve do not change the bucket). *)
Inductive fifo_op := FAdd (id : Z) | FReset.

Definition fifo_step (b : FifoBucket) (o : fifo_op) : res FifoBucket :=
  match o with
  | FAdd id => '(_, b') ← fifo_Add b id; Ok b'
  | FReset => Ok (fifo_Reset b)
  end.

Definition fifo_run (b : FifoBucket) (ops : list fifo_op) : res FifoBucket :=
  foldM fifo_step b ops.
