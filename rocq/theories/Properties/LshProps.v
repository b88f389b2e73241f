(** C07-C13, C63 (tables): lsh. *)
From Verif.Model Require Import Fifo Lsh.
From Verif.Spec Require Import FifoSpec LshSpec.
From Verif.Proofs Require Import BaseProofs FifoProofs LshProofs.

(** A random source for the examples. *)
Definition g0 : rng := {| rstream := fun n => 7 + 3 * Z.of_nat n; rpos := 0 |}.

(** C07.  (table, index) behaves like a fresh fifo bucket that received [routed ops table index]:
    for Retrieve, RetrieveRaw, and the slot returned by the next Add or AddSingle. *)
Theorem C07_lsh_is_map_of_fifos : forall k l rp g t0 g' ops t,
  0 <= rp <= 62 -> lsh_New k l rp g = Ok (t0, g') -> lsh_run t0 ops = Ok t ->
  forall table index, 0 <= table < l -> 0 <= index < 2^rp ->
  exists b, fifo_run fifo_New (FAdd <$> routed ops table index) = Ok b /\
    (forall slot, lsh_Retrieve t table index slot = fifo_Retrieve b slot) /\
    (forall indices rs, lsh_RetrieveRaw t indices = Ok rs ->
        length rs = Z.to_nat l /\
        (indices !! Z.to_nat table = Some index -> rs !! Z.to_nat table = Some (fifo_contents b))) /\
    (forall indices id rs t', lsh_Add t indices id = Ok (rs, t') ->
        indices !! Z.to_nat table = Some index ->
        exists slot b', rs !! Z.to_nat table = Some slot /\ fifo_Add b id = Ok (slot, b')) /\
    (forall id slot t', lsh_AddSingle t table index id = Ok (slot, t') ->
        exists b', fifo_Add b id = Ok (slot, b')).
Proof. exact lsh_map_refinement. Qed.
Print Assumptions C07_lsh_is_map_of_fifos.

Example C07_example :
  ('(t0, _) ← lsh_New 2 3 2 g0;
   t ← lsh_run t0 [LAdd [1;1;1] 9; LClear; LAdd [0;1;2] 5; LAddSingle 1 1 6];
   rs ← lsh_RetrieveRaw t [0;1;3]; x ← lsh_Retrieve t 1 1 1; Ok (rs, x)) = Ok ([[5];[5;6];[]], 6).
Proof. vm_compute; reflexivity. Qed.

(** C08.  Exactly the out-of-range calls panic. *)
Theorem C08_lsh_new_panics_iff : forall k l rp g,
  (0 <= l /\ (l = 0 \/ 0 <= rp /\ rp <> 63) /\ 0 <= wrap64 (k * l)) <->
  exists r, lsh_New k l rp g = Ok r.
Proof. exact lsh_New_panics. Qed.
Print Assumptions C08_lsh_new_panics_iff.

Theorem C08_lsh_calls_panic_iff : forall k l rp g t0 g',
  0 <= rp <= 62 -> lsh_New k l rp g = Ok (t0, g') ->
  (forall ops, (exists t, lsh_run t0 ops = Ok t) <-> Forall (valid_op l rp) ops) /\
  (forall ops t, lsh_run t0 ops = Ok t ->
    (forall indices id, (exists r, lsh_Add t indices id = Ok r) <-> valid_indices l rp indices) /\
    (forall indices, (exists r, lsh_RetrieveRaw t indices = Ok r) <-> valid_indices l rp indices) /\
    (forall table index id, (exists r, lsh_AddSingle t table index id = Ok r) <->
        0 <= table < l /\ 0 <= index < 2^rp) /\
    (forall table index slot, (exists r, lsh_Retrieve t table index slot = Ok r) <->
        0 <= table < l /\ 0 <= index < 2^rp /\ 0 <= slot)).
Proof. exact lsh_calls_panic_iff. Qed.
Print Assumptions C08_lsh_calls_panic_iff.

Example C08_example : exists t0 g', lsh_New 2 3 2 g0 = Ok (t0, g') /\
  lsh_Add t0 [0;1;4] 5 = Panic PIndex /\ lsh_Add t0 [0;1] 5 = Panic PIndex /\
  (exists r, lsh_Add t0 [0;1;3] 5 = Ok r).
Proof. do 2 eexists. split; [vm_compute; reflexivity|]. split; [|split; [|eexists]]; vm_compute; reflexivity. Qed.

(** C09.  SRP bits are encoded in binary, first bit most significant: in range, injective. *)
Theorem C09_srp_index_is_binary : forall t hashes,
  0 <= lsh_k t <= 62 -> 0 <= lsh_l t ->
  Z.of_nat (length hashes) = lsh_k t * lsh_l t ->
  Forall (fun b => b = 0 \/ b = 1) hashes ->
  exists ix, lsh_HashesToIndex SparseRandomProjectionHashFunction t hashes = Ok ix /\
    length ix = Z.to_nat (lsh_l t) /\
    forall i, 0 <= i < lsh_l t ->
      let bits := window (lsh_k t) i hashes in
      ix !! Z.to_nat i = Some (digits_value 2 bits) /\ 0 <= digits_value 2 bits < 2 ^ lsh_k t.
Proof. exact srp_encoding. Qed.
Print Assumptions C09_srp_index_is_binary.

Theorem C09_srp_index_injective : forall t hashes hashes' ix ix' i,
  0 <= lsh_k t <= 62 -> 0 <= i < lsh_l t ->
  Z.of_nat (length hashes) = lsh_k t * lsh_l t -> Z.of_nat (length hashes') = lsh_k t * lsh_l t ->
  Forall (fun b => b = 0 \/ b = 1) hashes -> Forall (fun b => b = 0 \/ b = 1) hashes' ->
  lsh_HashesToIndex SparseRandomProjectionHashFunction t hashes = Ok ix ->
  lsh_HashesToIndex SparseRandomProjectionHashFunction t hashes' = Ok ix' ->
  ix !! Z.to_nat i = ix' !! Z.to_nat i ->
  window (lsh_k t) i hashes = window (lsh_k t) i hashes'.
Proof. exact srp_index_injective. Qed.
Print Assumptions C09_srp_index_injective.

Theorem C09_srp_lookup_panics_iff_range_too_small : forall k l rp g t0 g' ops t,
  0 <= rp <= 62 -> 0 <= k <= 62 -> lsh_New k l rp g = Ok (t0, g') -> lsh_run t0 ops = Ok t ->
  (k <= rp -> forall hashes, Z.of_nat (length hashes) = k * l -> Forall (fun b => b = 0 \/ b = 1) hashes ->
     exists ix rs, lsh_HashesToIndex SparseRandomProjectionHashFunction t hashes = Ok ix /\
       lsh_RetrieveRaw t ix = Ok rs) /\
  (rp < k -> 0 < l -> exists hashes ix, Z.of_nat (length hashes) = k * l /\
     Forall (fun b => b = 0 \/ b = 1) hashes /\
     lsh_HashesToIndex SparseRandomProjectionHashFunction t hashes = Ok ix /\
     exists p, lsh_RetrieveRaw t ix = Panic p).
Proof. exact srp_lookup_safe. Qed.
Print Assumptions C09_srp_lookup_panics_iff_range_too_small.

Example C09_example :
  ('(t, _) ← lsh_New 3 2 3 g0; lsh_HashesToIndex SparseRandomProjectionHashFunction t [1;0;1; 0;1;1]) = Ok [5; 3].
Proof. vm_compute; reflexivity. Qed.

(** C10.  (D)WTA digits 0..7 are encoded in base 4 (not 8). *)
Theorem C10_wta_index_base4 : forall hf t hashes,
  hf = WtaHashFunction \/ hf = DensifiedWtaHashFunction ->
  0 <= lsh_k t <= 29 -> 0 <= lsh_l t ->
  Z.of_nat (length hashes) = lsh_k t * lsh_l t ->
  Forall (fun d => 0 <= d < 8) hashes ->
  exists ix, lsh_HashesToIndex hf t hashes = Ok ix /\
    length ix = Z.to_nat (lsh_l t) /\
    forall i, 0 <= i < lsh_l t ->
      let ds := window (lsh_k t) i hashes in
      ix !! Z.to_nat i = Some (digits_value 4 ds) /\
      0 <= digits_value 4 ds <= 7 * (4 ^ lsh_k t - 1) / 3.
Proof. exact dwta_encoding. Qed.
Print Assumptions C10_wta_index_base4.

Theorem C10_wta_lookup_panics_iff_range_too_small : forall hf k l rp g t0 g' ops t,
  hf = WtaHashFunction \/ hf = DensifiedWtaHashFunction ->
  0 <= rp <= 62 -> 0 <= k <= 29 -> lsh_New k l rp g = Ok (t0, g') -> lsh_run t0 ops = Ok t ->
  (7 * (4 ^ k - 1) / 3 < 2 ^ rp -> forall hashes, Z.of_nat (length hashes) = k * l -> Forall (fun d => 0 <= d < 8) hashes ->
     exists ix rs, lsh_HashesToIndex hf t hashes = Ok ix /\ lsh_RetrieveRaw t ix = Ok rs) /\
  (2 ^ rp <= 7 * (4 ^ k - 1) / 3 -> 0 < l -> exists hashes ix, Z.of_nat (length hashes) = k * l /\
     Forall (fun d => 0 <= d < 8) hashes /\
     lsh_HashesToIndex hf t hashes = Ok ix /\
     exists p, lsh_RetrieveRaw t ix = Panic p).
Proof. exact dwta_lookup_safe. Qed.
Print Assumptions C10_wta_lookup_panics_iff_range_too_small.

Example C10_example :
  ('(t, _) ← lsh_New 3 2 3 g0; lsh_HashesToIndex DensifiedWtaHashFunction t [7;7;7; 0;1;5]) = Ok [147; 9].
Proof. vm_compute; reflexivity. Qed.

(** C11 as stated is false: [0;4] and [1;0] share an index. *)
Theorem C11_dwta_index_injective_refuted :
  exists t hashes hashes', lsh_k t = 2 /\ lsh_l t = 1 /\
    length hashes = 2%nat /\ length hashes' = 2%nat /\
    Forall (fun d => 0 <= d < 8) hashes /\ Forall (fun d => 0 <= d < 8) hashes' /\
    hashes <> hashes' /\
    exists ix, lsh_HashesToIndex DensifiedWtaHashFunction t hashes = Ok ix /\
               lsh_HashesToIndex DensifiedWtaHashFunction t hashes' = Ok ix.
Proof. exact dwta_not_injective. Qed.
Print Assumptions C11_dwta_index_injective_refuted.

(** True when all digits are below 4. *)
Theorem C11_dwta_index_injective_partial : forall t hashes hashes' ix ix' i,
  0 <= lsh_k t <= 29 -> 0 <= i < lsh_l t ->
  Z.of_nat (length hashes) = lsh_k t * lsh_l t -> Z.of_nat (length hashes') = lsh_k t * lsh_l t ->
  Forall (fun d => 0 <= d < 4) hashes -> Forall (fun d => 0 <= d < 4) hashes' ->
  lsh_HashesToIndex DensifiedWtaHashFunction t hashes = Ok ix ->
  lsh_HashesToIndex DensifiedWtaHashFunction t hashes' = Ok ix' ->
  ix !! Z.to_nat i = ix' !! Z.to_nat i ->
  window (lsh_k t) i hashes = window (lsh_k t) i hashes'.
Proof. exact dwta_index_injective4. Qed.
Print Assumptions C11_dwta_index_injective_partial.

Example C11_example : exists t g', lsh_New 2 1 4 g0 = Ok (t, g') /\
  lsh_HashesToIndex DensifiedWtaHashFunction t [0;3] = Ok [3] /\
  lsh_HashesToIndex DensifiedWtaHashFunction t [1;0] = Ok [4].
Proof. do 2 eexists. split; [vm_compute; reflexivity|]. split; vm_compute; reflexivity. Qed.

(** C12.  Minhash indices are in range for arbitrary hashes, and lookups do not panic. *)
Theorem C12_minhash_index_in_range : forall k l rp g t0 g' ops t hashes,
  0 <= rp <= 62 -> 0 <= k -> k * l < 2^63 -> lsh_New k l rp g = Ok (t0, g') -> lsh_run t0 ops = Ok t ->
  Z.of_nat (length hashes) >= k * l ->
  exists ix rs, lsh_HashesToIndex DensifiedMinhashFunction t hashes = Ok ix /\
    length ix = Z.to_nat l /\ Forall (fun x => 0 <= x < 2^rp) ix /\ lsh_RetrieveRaw t ix = Ok rs.
Proof. exact minhash_in_range. Qed.
Print Assumptions C12_minhash_index_in_range.

Example C12_example :
  ('(t, _) ← lsh_New 2 2 3 g0; lsh_HashesToIndex DensifiedMinhashFunction t [minInt64; -5; 17; 1000000007]) = Ok [6; 4].
Proof. vm_compute; reflexivity. Qed.

(** C13.  Locality of each table's index, and when HashesToIndex panics. *)
Theorem C13_index_depends_only_on_own_window : forall hf t hashes hashes' ix ix' i,
  0 <= lsh_k t -> 0 <= i < lsh_l t ->
  lsh_HashesToIndex hf t hashes = Ok ix -> lsh_HashesToIndex hf t hashes' = Ok ix' ->
  window (lsh_k t) i hashes = window (lsh_k t) i hashes' ->
  ix !! Z.to_nat i = ix' !! Z.to_nat i /\ is_Some (ix !! Z.to_nat i).
Proof. exact HashesToIndex_local. Qed.
Print Assumptions C13_index_depends_only_on_own_window.

Theorem C13_hashes_to_index_panics_iff : forall hf k l rp g t0 g' ops t hashes,
  hf <> HashOther -> 0 <= rp <= 62 -> 0 < k -> 0 < l -> k * l < 2^63 ->
  lsh_New k l rp g = Ok (t0, g') -> lsh_run t0 ops = Ok t ->
  ((exists ix, lsh_HashesToIndex hf t hashes = Ok ix) <-> k * l <= Z.of_nat (length hashes)) /\
  (forall ix, lsh_HashesToIndex hf t hashes = Ok ix -> length ix = Z.to_nat l).
Proof. exact HashesToIndex_panics_iff. Qed.
Print Assumptions C13_hashes_to_index_panics_iff.

Example C13_example : exists t g', lsh_New 2 2 3 g0 = Ok (t, g') /\
  lsh_HashesToIndex WtaHashFunction t [1;2;3;4] = Ok [6; 16] /\
  lsh_HashesToIndex WtaHashFunction t [1;2;0;0] = Ok [6; 0] /\
  lsh_HashesToIndex WtaHashFunction t [1;2;3] = Panic PIndex.
Proof. do 2 eexists. split; [vm_compute; reflexivity|]. split; [|split]; vm_compute; reflexivity. Qed.

(** C63 (tables).  The random multipliers of a table. *)
Theorem C63_lsh_multipliers_positive_odd : forall k l rp g t g',
  0 <= rp <= 62 -> lsh_New k l rp g = Ok (t, g') ->
  Z.of_nat (length (lsh_rand1 t)) = wrap64 (k * l) /\
  Forall (fun z => 0 < z <= maxInt64 /\ Z.odd z = true) (lsh_rand1 t).
Proof. exact lsh_rand1_odd. Qed.
Print Assumptions C63_lsh_multipliers_positive_odd.

Example C63_example : exists t g', lsh_New 2 2 3 g0 = Ok (t, g') /\ lsh_rand1 t = [7; 11; 13; 17].
Proof. do 2 eexists. split; [vm_compute; reflexivity|]. vm_compute; reflexivity. Qed.
