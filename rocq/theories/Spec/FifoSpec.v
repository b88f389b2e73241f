(** What a client can say about a FIFO bucket, without its implementation. *)
From Verif.Model Require Import Fifo.

(** Ids added since the last Reset, oldest first. *)
Definition adds_since_reset (ops : list fifo_op) : list Z :=
  fold_left (fun h o => match o with FAdd id => h ++ [id] | FReset => [] end) ops [].

(** [v] is the most recent id of history [h] whose ordinal is [j] modulo 128. *)
Definition newest_in_slot (h : list Z) (j : nat) (v : Z) : Prop :=
  exists i, h !! i = Some v /\ (i mod 128 = j)%nat /\
            forall i', (i < i' < length h)%nat -> (i' mod 128 <> j)%nat.

(** Every storage write of a history, oldest first: the k-th Add since a Reset
    (k = 0, 1, ...) writes slot k mod 128. *)
Definition slot_writes (ops : list fifo_op) : list (nat * Z) :=
  snd (fold_left (fun '(k, w) o =>
         match o with
         | FAdd id => (S k, w ++ [((k mod 128)%nat, id)])
         | FReset => (0%nat, w)
         end) ops (0%nat, [])).

(** [v] is the last value written to slot [j] in the write log [w]. *)
Definition last_written (w : list (nat * Z)) (j : nat) (v : Z) : Prop :=
  exists before after, w = before ++ (j, v) :: after /\ forall y, (j, y) ∉ after.

(** The mutating calls of an array-bucket history that a fifo bucket also has. *)
From Verif.Model Require Import Bucket.
Definition as_fifo_ops (ops : list bk_op) : list fifo_op :=
  omap (fun o => match o with BAdd id => Some (FAdd id) | BReset => Some FReset | BGetAll => None end) ops.
