(** The unit tests that nlpodyssey/goslide ships, replayed on the model: evidence that the model
    computes what the code computes, not proofs of properties.  Each Example is one test function;
    an assertion assertIntEqual(t, e, v) becomes a check [e ?= v].  Where the code draws random
    numbers the test is replayed for three random streams. *)
From Verif.Model Require Import Bucket Fifo Lsh Wta Dwta Minhash Srp Float64.

(** assertIntEqual *)
Definition same (e : res Z) (v : Z) : bool := match e with Ok x => x =? v | Panic _ => false end.
Infix "?=" := same (at level 70).
(** assertIntSliceEqual *)
Definition same_list (a b : list Z) : bool := bool_decide (a = b).
Definition lenZ {A} (l : list A) : Z := Z.of_nat (length l).
(** a computation succeeds and its result passes [f] *)
Definition passes {A} (r : res A) (f : A -> bool) : bool := match r with Ok a => f a | Panic _ => false end.
(** for i := lo; i < hi; i++ *)
Definition upto (lo hi : Z) : list Z := seqZ lo (hi - lo).

(** Three random streams. *)
Definition streams : list rng :=
  [ {| rstream := fun n => 5 + 11 * Z.of_nat n; rpos := 0 |};
    {| rstream := fun n => 6364136223846793005 * Z.of_nat (n * n) + 1442695040888963407; rpos := 0 |};
    {| rstream := fun n => 982451653 * 982451653 * (Z.of_nat n + 3) + Z.of_nat n; rpos := 0 |} ].
Definition for_streams (f : rng -> bool) : bool := forallb f streams.

(** ** bucket/bucket_test.go *)

(** TestBucketNew — bucket/bucket_test.go:12-30 *)
Example TestBucketNew :
  let b := bk_New in
  (bk_isInit b =? -1) && (bk_index b =? 0) && (bk_counts b =? 0) && (lenZ (bk_arr b) =? 128) &&
  (bk_GetSize b =? 0) && (bk_Retrieve b 0 ?= 0) && (bk_Retrieve b 127 ?= 0) && (bk_Retrieve b 128 ?= -1) &&
  passes (bk_GetAll b) (fun '(all, _) => match all with None => true | Some _ => false end) = true.
Proof. vm_compute. reflexivity. Qed.

(** for i := lo; i < hi; i++ { r := b.Add(i + 1000); assertIntEqual(t, r, i - off) } *)
Definition bk_adds (b : Bucket) (lo hi off : Z) : res Bucket :=
  foldM (fun b i => '(r, b) ← bk_Add b (i + 1000); if r =? i - off then Ok b else Panic PIndex) b (upto lo hi).

(** TestBucketAdd — bucket/bucket_test.go:32-113 *)
Example TestBucketAdd :
  passes (bk_adds bk_New 0 10 0) (fun b =>
    (bk_GetSize b =? 10) && (bk_Retrieve b 0 ?= 1000) && (bk_Retrieve b 1 ?= 1001) &&
    (bk_Retrieve b 9 ?= 1009) && (bk_Retrieve b 10 ?= 0) && (bk_Retrieve b 127 ?= 0) &&
    (bk_Retrieve b 128 ?= -1) &&
    passes (bk_GetAll b) (fun '(all, b) =>
      match all with
      | Some all => same_list all (map (fun i => i + 1000) (upto 0 10) ++ [-1] ++ replicate 117 0)
      | None => false
      end &&
      passes (bk_adds b 10 128 0) (fun b =>
        (bk_GetSize b =? 128) && (bk_Retrieve b 0 ?= 1000) && (bk_Retrieve b 1 ?= 1001) &&
        (bk_Retrieve b 9 ?= 1009) && (bk_Retrieve b 10 ?= 1010) && (bk_Retrieve b 127 ?= 1127) &&
        (bk_Retrieve b 128 ?= -1) &&
        passes (bk_GetAll b) (fun '(all, b) =>
          match all with
          | Some all => same_list all (map (fun i => i + 1000) (upto 0 128))
          | None => false
          end &&
          passes (bk_adds b 128 130 128) (fun b =>
            (bk_GetSize b =? 130) && (bk_Retrieve b 0 ?= 1128) && (bk_Retrieve b 1 ?= 1129) &&
            (bk_Retrieve b 2 ?= 1002) && (bk_Retrieve b 3 ?= 1003) && (bk_Retrieve b 127 ?= 1127) &&
            (bk_Retrieve b 128 ?= -1) &&
            passes (bk_GetAll b) (fun '(all, b) =>
              match all with
              | Some all => same_list all (map (fun i => i + 1128) (upto 0 2) ++ map (fun i => i + 1000) (upto 2 128))
              | None => false
              end)))))) = true.
Proof. vm_compute. reflexivity. Qed.

(** ** bucket/fifo/fifo_test.go *)

(** TestFifoBucketNew — bucket/fifo/fifo_test.go:12-25 *)
Example TestFifoBucketNew :
  let b := fifo_New in
  (fb_count b =? 0) && (Z.of_nat (fb_len b) =? 0) && (lenZ (fb_arr b) =? 128) &&
  (fifo_Retrieve b 0 ?= 0) && (fifo_Retrieve b 127 ?= 0) && (fifo_Retrieve b 128 ?= -1) &&
  (lenZ (view_read b (fifo_GetAll b)) =? 0) = true.
Proof. vm_compute. reflexivity. Qed.

Definition fifo_adds (b : FifoBucket) (lo hi off : Z) : res FifoBucket :=
  foldM (fun b i => '(r, b) ← fifo_Add b (i + 1000); if r =? i - off then Ok b else Panic PIndex) b (upto lo hi).

Definition fifo_sizes (b : FifoBucket) (count len cap : Z) : bool :=
  (fb_count b =? count) && (Z.of_nat (fb_len b) =? len) && (lenZ (fb_arr b) =? cap).

(** TestFifoBucketAdd — bucket/fifo/fifo_test.go:27-107 *)
Example TestFifoBucketAdd :
  passes (fifo_adds fifo_New 0 10 0) (fun b =>
    fifo_sizes b 10 10 128 && (fifo_Retrieve b 0 ?= 1000) && (fifo_Retrieve b 1 ?= 1001) &&
    (fifo_Retrieve b 9 ?= 1009) && (fifo_Retrieve b 10 ?= 0) && (fifo_Retrieve b 127 ?= 0) &&
    (fifo_Retrieve b 128 ?= -1) &&
    same_list (view_read b (fifo_GetAll b)) (map (fun i => i + 1000) (upto 0 10)) &&
    passes (fifo_adds b 10 128 0) (fun b =>
      fifo_sizes b 128 128 128 && (fifo_Retrieve b 0 ?= 1000) && (fifo_Retrieve b 1 ?= 1001) &&
      (fifo_Retrieve b 9 ?= 1009) && (fifo_Retrieve b 10 ?= 1010) && (fifo_Retrieve b 127 ?= 1127) &&
      (fifo_Retrieve b 128 ?= -1) &&
      same_list (view_read b (fifo_GetAll b)) (map (fun i => i + 1000) (upto 0 128)) &&
      passes (fifo_adds b 128 130 128) (fun b =>
        fifo_sizes b 130 128 128 && (fifo_Retrieve b 0 ?= 1128) && (fifo_Retrieve b 1 ?= 1129) &&
        (fifo_Retrieve b 2 ?= 1002) && (fifo_Retrieve b 3 ?= 1003) && (fifo_Retrieve b 127 ?= 1127) &&
        (fifo_Retrieve b 128 ?= -1) &&
        same_list (view_read b (fifo_GetAll b))
          (map (fun i => i + 1128) (upto 0 2) ++ map (fun i => i + 1000) (upto 2 128))))) = true.
Proof. vm_compute. reflexivity. Qed.

(** ** lsh/lsh_test.go *)

(** isPositiveOdd — lsh/lsh_test.go:97-103 *)
Definition isPositiveOdd (n : Z) : bool := negb (n =? 0) && negb (Z.rem n 2 =? 0).

(** a new lsh.New(3, 4, 10) for each stream *)
Definition with_lsh (f : LSH -> bool) : bool := for_streams (fun g => passes (lsh_New 3 4 10 g) (fun '(t, _) => f t)).

(** TestLSHNew — lsh/lsh_test.go:12-28 *)
Example TestLSHNew :
  with_lsh (fun t =>
    (lsh_k t =? 3) && (lsh_l t =? 4) && (lsh_rangePow t =? 10) && (lenZ (lsh_buckets t) =? 4) &&
    (lenZ (lsh_rand1 t) =? 12) && forallb (fun b => lenZ b =? 1024) (lsh_buckets t) &&
    forallb isPositiveOdd (lsh_rand1 t)) = true.
Proof. vm_compute. reflexivity. Qed.

(** TestLSHAdd — lsh/lsh_test.go:30-38 *)
Example TestLSHAdd :
  with_lsh (fun t =>
    passes (lsh_Add t [1; 10; 100; 1000] 4321) (fun '(r, t) => same_list r [0; 0; 0; 0] &&
      passes (lsh_Add t [2; 10; 200; 1000] 4321) (fun '(r, t) => same_list r [0; 1; 0; 1]))) = true.
Proof. vm_compute. reflexivity. Qed.

(** TestLSHAddSingle — lsh/lsh_test.go:40-51 *)
Example TestLSHAddSingle :
  with_lsh (fun t =>
    passes (lsh_AddSingle t 0 0 123) (fun '(r, t) => (r =? 0) &&
      passes (lsh_AddSingle t 1 1 456) (fun '(r, t) => (r =? 0) &&
        passes (lsh_AddSingle t 0 0 789) (fun '(r, t) => r =? 1)))) = true.
Proof. vm_compute. reflexivity. Qed.

(** TestLSHRetrieveRaw — lsh/lsh_test.go:53-64 *)
Example TestLSHRetrieveRaw :
  with_lsh (fun t =>
    passes (lsh_Add t [1; 10; 100; 1000] 4321) (fun '(_, t) =>
      passes (lsh_RetrieveRaw t [1; 10; 100; 1000]) (fun r =>
        (lenZ r =? 4) && forallb (fun x => same_list x [4321]) r))) = true.
Proof. vm_compute. reflexivity. Qed.

(** TestLSHRetrieve — lsh/lsh_test.go:66-72 *)
Example TestLSHRetrieve :
  with_lsh (fun t => passes (lsh_AddSingle t 2 3 123) (fun '(_, t) => lsh_Retrieve t 2 3 0 ?= 123)) = true.
Proof. vm_compute. reflexivity. Qed.

(** TestLSHHashesToIndex — lsh/lsh_test.go:74-79; for every hash function of the configuration *)
Example TestLSHHashesToIndex :
  with_lsh (fun t => forallb (fun hf =>
    passes (lsh_HashesToIndex hf t [1; 2; 3; 4; 5; 6; 7; 8; 9; 10; 11; 12]) (fun r => lenZ r =? 4))
    [WtaHashFunction; DensifiedWtaHashFunction; DensifiedMinhashFunction; SparseRandomProjectionHashFunction]) = true.
Proof. vm_compute. reflexivity. Qed.

(** TestLSHClear — lsh/lsh_test.go:81-92 *)
Example TestLSHClear :
  with_lsh (fun t => passes (lsh_AddSingle t 2 3 123) (fun '(_, t) =>
    (lsh_Retrieve t 2 3 0 ?= 123) && (lsh_Retrieve (lsh_Clear t) 2 3 0 ?= 0))) = true.
Proof. vm_compute. reflexivity. Qed.

(** ** The hash families *)

(** []float64{...} of integers, and pairs {0, v0}, {1, v1}, ... *)
Definition floats (l : list Z) : list float64 := map f_of_Z l.
Definition pairs (l : list Z) : list Pair := imap (fun i v => mkPair (Z.of_nat i) (f_of_Z v)) l.
Definition one_to_ten : list Z := [1; 2; 3; 4; 5; 6; 7; 8; 9; 10].
Definition tens : list Z := [10; 20; 30; 40; 50; 60; 70; 80; 90; 100].
Definition ten_to_one : list Z := [10; 9; 8; 7; 6; 5; 4; 3; 2; 1].

(** *** wta_hash/wta_hash_test.go *)

Definition with_wta (f : WtaHash -> bool) : bool := for_streams (fun g => passes (wta_New 3 10 g) (fun '(h, _) => f h)).

(** TestWtaHashNew — wta_hash/wta_hash_test.go:13-42 *)
Example TestWtaHashNew :
  with_wta (fun h =>
    (wta_numHashes h =? 3) && (wta_rangePow h =? 10) && (lenZ (wta_indices h) =? 30) &&
    forallb (fun i => let part := take 10 (drop (Z.to_nat (i * 10)) (wta_indices h)) in
      forallb (fun v => (0 <=? v) && (v <? 10)) part &&
      forallb (fun v => lenZ (filter (eq v) part) =? 1) (upto 0 10)) (upto 0 3)) = true.
Proof. vm_compute. reflexivity. Qed.

(** TestWtaHashGetHash — wta_hash/wta_hash_test.go:44-66.  That c differs from a depends on the
    random permutation; it does on these. *)
Example TestWtaHashGetHash :
  with_wta (fun h =>
    passes (wta_GetHash h (pairs one_to_ten)) (fun a => passes (wta_GetHash h (pairs tens)) (fun b =>
      passes (wta_GetHash h (pairs ten_to_one)) (fun c => same_list a b && negb (same_list a c))))) = true.
Proof. vm_compute. reflexivity. Qed.

(** TestWtaHashGetHashDense — wta_hash/wta_hash_test.go:68-77 *)
Example TestWtaHashGetHashDense :
  with_wta (fun h =>
    passes (wta_GetHashDense h (floats one_to_ten)) (fun a => passes (wta_GetHashDense h (floats tens)) (fun b =>
      passes (wta_GetHashDense h (floats ten_to_one)) (fun c => same_list a b && negb (same_list a c))))) = true.
Proof. vm_compute. reflexivity. Qed.

(** *** densified_wta_hash/densified_wta_hash_test.go.  math.Log2 3 is 1.58...; only its integer part
    is used, so 1.5 stands for it. *)
Definition log2_of_3 : float64 -> float64 := fun _ => fdiv (f_of_Z 3) (f_of_Z 2).

Definition with_dwta (f : Dwta -> bool) : bool :=
  for_streams (fun g => passes (dwta_New log2_of_3 3 10 g) (fun '(h, _) => f h)).

(** TestDensifiedWtaHashNew — densified_wta_hash/densified_wta_hash_test.go:13-36 *)
Example TestDensifiedWtaHashNew :
  with_dwta (fun h => let d := dw_d h in
    (dh_numHashes d =? 3) && (dh_rangePow d =? 10) && isPositiveOdd (dh_randHash d).1 &&
    isPositiveOdd (dh_randHash d).2 && isPositiveOdd (dh_randa d) && (dh_logNumHash d =? 1) &&
    (dw_permute h =? 3) && (lenZ (dw_indices h) =? 30) && (lenZ (dw_pos h) =? 30) &&
    forallb (fun v => (0 <=? v) && (v <? 4)) (dw_indices h) &&
    forallb (fun v => (0 <=? v) && (v <? 8)) (dw_pos h)) = true.
Proof. vm_compute. reflexivity. Qed.

(** TestDensifiedWtaHashGetHash — densified_wta_hash/densified_wta_hash_test.go:38-48 *)
Example TestDensifiedWtaHashGetHash :
  with_dwta (fun h => passes (dwta_GetHash h (pairs one_to_ten)) (fun r => lenZ r =? 3)) = true.
Proof. vm_compute. reflexivity. Qed.

(** TestDensifiedWtaHashGetHashEasy — densified_wta_hash/densified_wta_hash_test.go:50-58 *)
Example TestDensifiedWtaHashGetHashEasy :
  with_dwta (fun h => passes (dwta_GetHashEasy h (floats one_to_ten) 8) (fun r => lenZ r =? 3)) = true.
Proof. vm_compute. reflexivity. Qed.

(** TestDensifiedWtaHashGetRandDoubleHash — densified_wta_hash/densified_wta_hash_test.go:60-64 *)
Example TestDensifiedWtaHashGetRandDoubleHash :
  with_dwta (fun h => passes (GetRandDoubleHash (dw_d h) 1 2) (fun _ => true)) = true.
Proof. vm_compute. reflexivity. Qed.

(** *** densified_minhash/densified_minhash_test.go.  Some hash function stands for maphash. *)
Definition some_maphash : Z -> Z := fun i => (11400714819323198485 * (i + 1) `mod` 2 ^ 64) `mod` 2 ^ 64.

Definition with_minhash (f : Minhash -> bool) : bool :=
  for_streams (fun g => f (mn_New log2_of_3 some_maphash 3 10 g).1).

(** TestDensifiedMinhashNew — densified_minhash/densified_minhash_test.go:13-21 *)
Example TestDensifiedMinhashNew :
  with_minhash (fun h => let d := mn_d h in
    (dh_numHashes d =? 3) && (dh_rangePow d =? 10) && isPositiveOdd (dh_randHash d).1 &&
    isPositiveOdd (dh_randHash d).2 && isPositiveOdd (dh_randa d) && (dh_logNumHash d =? 1)) = true.
Proof. vm_compute. reflexivity. Qed.

Definition bin_ids : list Z := [0; 1; 2; 0; 1; 2; 0; 1; 2; 0].

(** TestWtaHashGetHash of the package — densified_minhash/densified_minhash_test.go:23-32 *)
Example TestMinhashGetHash :
  with_minhash (fun h => passes (mn_GetHash h bin_ids (floats one_to_ten) [0; 1; 2]) (fun r => lenZ r =? 3)) = true.
Proof. vm_compute. reflexivity. Qed.

(** TestWtaHashGetHashEasy of the package — densified_minhash/densified_minhash_test.go:34-46 *)
Example TestMinhashGetHashEasy :
  with_minhash (fun h => passes (mn_GetHashEasy h bin_ids (pairs one_to_ten) [] 8) (fun r => lenZ r =? 3)) = true.
Proof. vm_compute. reflexivity. Qed.

(** TestWtaHashGetHashEasyDense of the package — densified_minhash/densified_minhash_test.go:48-57 *)
Example TestMinhashGetHashEasyDense :
  with_minhash (fun h => passes (mn_GetHashEasyDense h bin_ids (floats one_to_ten) [] 8) (fun r => lenZ r =? 3)) = true.
Proof. vm_compute. reflexivity. Qed.

(** TestWtaHashGetRandDoubleHash of the package — densified_minhash/densified_minhash_test.go:59-63 *)
Example TestMinhashGetRandDoubleHash :
  with_minhash (fun h => passes (GetRandDoubleHash (mn_d h) 1 2) (fun _ => true)) = true.
Proof. vm_compute. reflexivity. Qed.

(** TestWtaHashGetMap of the package — densified_minhash/densified_minhash_test.go:65-76 *)
Example TestMinhashGetMap :
  with_minhash (fun h => passes (mn_GetMap h 5) (fun r =>
    (lenZ r =? 5) && forallb (fun v => (0 <=? v) && (v <? 3)) r)) = true.
Proof. vm_compute. reflexivity. Qed.

(** *** sparse_random_projection/sparse_random_projection_test.go *)

Definition with_srp (f : Srp -> bool) : bool := for_streams (fun g => passes (srp_New 10 3 2 g) (fun '(h, _) => f h)).

(** TestSparseRandomProjectionNew — sparse_random_projection/sparse_random_projection_test.go:13-35 *)
Example TestSparseRandomProjectionNew :
  with_srp (fun h =>
    (srp_dim h =? 10) && (srp_numHashes h =? 3) && (srp_samSize h =? 5) &&
    (lenZ (srp_randBits h) =? 3) && (lenZ (srp_indices h) =? 3) &&
    forallb (fun v => lenZ v =? 5) (srp_randBits h) &&
    forallb (fun v => (lenZ v =? 5) && forallb (fun i => (0 <=? i) && (i <? 10)) v) (srp_indices h)) = true.
Proof. vm_compute. reflexivity. Qed.

(** TestSparseRandomProjectionGetHash — sparse_random_projection/sparse_random_projection_test.go:37-42 *)
Example TestSparseRandomProjectionGetHash :
  with_srp (fun h => passes (srp_GetHash h (floats one_to_ten)) (fun r => lenZ r =? 3)) = true.
Proof. vm_compute. reflexivity. Qed.

(** TestSparseRandomProjectionGetHashSparse — sparse_random_projection/sparse_random_projection_test.go:44-51 *)
Example TestSparseRandomProjectionGetHashSparse :
  with_srp (fun h => passes (srp_GetHashSparse h
      [mkPair 0 (f_of_Z 1); mkPair 4 (f_of_Z 5); mkPair 7 (f_of_Z 8); mkPair 9 (f_of_Z 10)])
    (fun r => lenZ r =? 3)) = true.
Proof. vm_compute. reflexivity. Qed.
