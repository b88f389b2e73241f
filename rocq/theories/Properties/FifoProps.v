(** C01-C04: bucket/fifo. *)
From Verif.Model Require Import Fifo.
From Verif.Spec Require Import FifoSpec.
From Verif.Proofs Require Import BaseProofs FifoProofs.

(** C01.  Every history runs without panic; GetAll has min(n,128) elements, and its element j
    is the newest id whose ordinal since the last Reset is j modulo 128. *)
Theorem C01_fifo_keeps_last_128 : forall ops : list fifo_op,
  exists b, fifo_run fifo_New ops = Ok b /\
    length (fifo_contents b) = Nat.min (length (adds_since_reset ops)) 128 /\
    forall j v, fifo_contents b !! j = Some v <-> newest_in_slot (adds_since_reset ops) j v.
Proof. exact fifo_ring_correct. Qed.
Print Assumptions C01_fifo_keeps_last_128.

Example C01_example :
  newest_in_slot (seqZ 0 130) 1 129 /\
  (b ← fifo_run fifo_New ([FAdd 7; FReset] ++ (FAdd <$> seqZ 0 130)); Ok (take 3 (fifo_contents b))) = Ok [128; 129; 2].
Proof.
  split; [|vm_compute; reflexivity].
  exists 129%nat. split; [reflexivity|]. split; [reflexivity|].
  intros i' [H1 H2]. rewrite seqZ_length in H2. lia.
Qed.

(** C02.  Add returns the slot where the id can be read back, until the 128th further Add,
    which lands in that very slot. *)
Theorem C02_fifo_add_readback : forall (ops : list fifo_op) (id : Z) (ids : list Z),
  (length ids < 128)%nat ->
  exists b j b1 b2, fifo_run fifo_New ops = Ok b /\
    fifo_Add b id = Ok (j, b1) /\ 0 <= j < 128 /\
    fifo_run b1 (FAdd <$> ids) = Ok b2 /\
    fifo_Retrieve b2 j = Ok id /\
    (length ids = 127%nat -> forall id', exists b3, fifo_Add b2 id' = Ok (j, b3) /\
       fifo_Retrieve b3 j = Ok id').
Proof. exact fifo_add_readback. Qed.
Print Assumptions C02_fifo_add_readback.

Example C02_example : (length (replicate 127 5) < 128)%nat /\
  (b ← fifo_run fifo_New (FAdd <$> seqZ 0 200); '(j, b1) ← fifo_Add b 77;
   b2 ← fifo_run b1 (FAdd <$> replicate 127 5); v ← fifo_Retrieve b2 j; Ok (j, v)) = Ok (72, 77).
Proof. split; [rewrite replicate_length; lia|vm_compute; reflexivity]. Qed.

(** C03.  Retrieve on any reachable bucket.  (The model of Retrieve returns no new bucket: the
    Go method assigns nothing.) *)
Theorem C03_fifo_retrieve_total : forall (ops : list fifo_op) (b : FifoBucket) (j : Z),
  fifo_run fifo_New ops = Ok b ->
  (128 <= j -> fifo_Retrieve b j = Ok (-1)) /\
  (j < 0 <-> exists p, fifo_Retrieve b j = Panic p) /\
  (0 <= j < 128 -> forall v, newest_in_slot (adds_since_reset ops) (Z.to_nat j) v -> fifo_Retrieve b j = Ok v) /\
  (Z.of_nat (length (adds_since_reset ops)) <= j < 128 -> fifo_Retrieve b j = Ok 0).
Proof. exact fifo_Retrieve_total. Qed.
Print Assumptions C03_fifo_retrieve_total.

Example C03_example :
  (b ← fifo_run fifo_New [FAdd 4; FAdd 5]; x ← fifo_Retrieve b 1; y ← fifo_Retrieve b 2; z ← fifo_Retrieve b 128; Ok (x,y,z))
  = Ok (5, 0, -1).
Proof. vm_compute; reflexivity. Qed.

(** C04.  The slice returned by GetAll is a live view of the bucket's storage. *)
Theorem C04_fifo_getall_is_live_view : forall ops1 ops2 : list fifo_op,
  exists b1 b2, fifo_run fifo_New ops1 = Ok b1 /\ fifo_run b1 ops2 = Ok b2 /\
    let v := fifo_GetAll b1 in
    length (view_read b2 v) = Nat.min (length (adds_since_reset ops1)) 128 /\
    (forall j x, view_read b2 v !! j = Some x ->
        last_written (slot_writes (ops1 ++ ops2)) j x) /\
    (forall j, (forall y, (j, y) ∉ drop (length (slot_writes ops1)) (slot_writes (ops1 ++ ops2))) ->
        view_read b2 v !! j = view_read b1 v !! j).
Proof. exact fifo_view_live. Qed.
Print Assumptions C04_fifo_getall_is_live_view.

(** The view of [1;2;3] reads [9;2;3] after Reset and Add 9. *)
Example C04_example :
  (b1 ← fifo_run fifo_New [FAdd 1; FAdd 2; FAdd 3]; b2 ← fifo_run b1 [FReset; FAdd 9];
   Ok (view_read b1 (fifo_GetAll b1), view_read b2 (fifo_GetAll b1))) = Ok ([1;2;3], [9;2;3]).
Proof. vm_compute; reflexivity. Qed.
