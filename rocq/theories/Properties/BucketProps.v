(** C05, C06: the array-backed bucket. *)
From Verif.Model Require Import Fifo Bucket.
From Verif.Spec Require Import FifoSpec.
From Verif.Proofs Require Import BaseProofs FifoProofs BucketProofs.

(** C05. *)
Theorem C05_bucket_agrees_with_fifo : forall ops : list bk_op,
  Z.of_nat (length ops) < 2^63 - 1 ->
  exists b f, bk_run bk_New ops = Ok b /\ fifo_run fifo_New (as_fifo_ops ops) = Ok f /\
    let h := adds_since_reset (as_fifo_ops ops) in
    bk_GetSize b = Z.of_nat (length h) /\
    (forall id, exists b', bk_Add b id = Ok (Z.of_nat (length h) mod 128, b')) /\
    (forall j, 0 <= j -> j < Z.of_nat (length h) -> exists v, bk_Retrieve b j = Ok v /\ fifo_Retrieve f j = Ok v) /\
    (forall j, 128 <= j -> bk_Retrieve b j = Ok (-1)) /\
    (exists r b', bk_GetAll b = Ok (r, b') /\
       (r = None <-> h = []) /\
       (forall l, r = Some l ->
          length l = 128%nat /\
          (forall j v, newest_in_slot h j v -> l !! j = Some v) /\
          ((length h < 128)%nat -> l !! length h = Some (-1)))).
Proof. exact bucket_agrees. Qed.
Print Assumptions C05_bucket_agrees_with_fifo.

Example C05_example : Z.of_nat (length [BAdd 1; BGetAll; BReset; BAdd 5; BAdd 6]) < 2^63 - 1 /\
  (b ← bk_run bk_New [BAdd 1; BGetAll; BReset; BAdd 5; BAdd 6]; '(r, _) ← bk_GetAll b;
   Ok (bk_GetSize b, option_map (take 4) r)) = Ok (2, Some [5; 6; -1; 0]).
Proof. vm_compute; split; reflexivity. Qed.

(** C06 as stated ("GetAll changes no later Retrieve") is false of the code. *)
Theorem C06_bucket_getall_pure_refuted :
  exists (ops : list bk_op) (j : Z) b r b' x y, bk_run bk_New ops = Ok b /\ bk_GetAll b = Ok (r, b') /\
    bk_Retrieve b j = Ok x /\ bk_Retrieve b' j = Ok y /\ x <> y.
Proof. exact bucket_getall_impure. Qed.
Print Assumptions C06_bucket_getall_pure_refuted.

(** What remains true: GetAll changes no slot but the first never-filled one. *)
Theorem C06_bucket_getall_frame_partial : forall (ops : list bk_op) b r b' (j : Z),
  Z.of_nat (length ops) < 2^63 -> bk_run bk_New ops = Ok b -> bk_GetAll b = Ok (r, b') ->
  j <> Z.of_nat (length (adds_since_reset (as_fifo_ops ops))) ->
  bk_Retrieve b' j = bk_Retrieve b j.
Proof. exact bucket_GetAll_frame. Qed.
Print Assumptions C06_bucket_getall_frame_partial.

Example C06_example : exists b r b', bk_run bk_New [BAdd 3] = Ok b /\ bk_GetAll b = Ok (r, b') /\
  b <> b' /\ bk_Retrieve b' 0 = Ok 3.
Proof. do 3 eexists. split; [vm_compute; reflexivity|]. split; [vm_compute; reflexivity|]. split; [done|reflexivity]. Qed.
