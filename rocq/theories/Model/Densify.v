(** Code that is duplicated in densified_wta_hash and densified_minhash. *)
From Verif.Model Require Export IndexValue.

(** The fields common to DensifiedWtaHash (densified_wta_hash/densified_wta_hash.go:25-34)
    and DensifiedMinhash (densified_minhash/densified_minhash.go:18-25). *)
Record DHash := mkDHash {
  dh_randHash : Z * Z; dh_randa : Z; dh_numHashes : Z; dh_rangePow : Z; dh_logNumHash : Z
}.

(** Constructor part shared by both New functions — densified_wta_hash.go:62-72,
    densified_minhash.go:30-38.  [log2] stands for math.Log2. *)
Definition dh_New (log2 : float64 -> float64) (numHashes n : Z) (g : rng) : DHash * rng :=
  let '(r0, g) := positiveOddRandomInt g in
  let '(r1, g) := positiveOddRandomInt g in
  let '(ra, g) := positiveOddRandomInt g in
  ({| dh_randHash := (r0, r1); dh_randa := ra; dh_numHashes := numHashes; dh_rangePow := n;
      dh_logNumHash := int_of_f (log2 (f_of_Z numHashes)) |}, g).

(** GetRandDoubleHash — densified_wta_hash.go:165-168, densified_minhash.go:196-199.
    In Go, * and << have equal precedence and associate to the left. *)
Definition GetRandDoubleHash (d : DHash) (binId count : Z) : res Z :=
  let toHash := u64 (u64 (Z.shiftl (u64 (u64 binId + 1)) 6) + u64 count) in
  let x := u64 (Z.shiftl (u64 (u64 (fst (dh_randHash d)) * toHash)) 3) in
  y ← shr64 x (wrap64 (32 - dh_logNumHash d));
  Ok (wrap64 y).

(** The probe index, minInt(GetRandDoubleHash(i, count), numHashes-1) —
    densified_wta_hash.go:106, 150; densified_minhash.go:67, 124, 182 *)
Definition probe_index (d : DHash) (i count : Z) : res Z :=
  h ← GetRandDoubleHash d i count;
  Ok (Z.min h (dh_numHashes d - 1)).

(** for count := 1; empty(next); count++ { next = look(count); if count > 100 { next = fail(next); break } }
    — densified_wta_hash.go:105-113, 149-157; densified_minhash.go:66-73, 123-130, 181-188.
    [fuel] bounds the recursion only; 101 is always enough (proved). *)
Fixpoint probe_loop {A} (fuel : nat) (empty : A -> bool) (fail : A -> A) (look : Z -> res A)
    (count : Z) (next : A) : res A :=
  if empty next then
    match fuel with
    | O => Panic PFuel
    | S fuel' =>
        next' ← look count;
        if 100 <? count then Ok (fail next')
        else probe_loop fuel' empty fail look (count + 1) next'
    end
  else Ok next.

(** for i, next := range items { ... hashArray[i] = ... } — densified_wta_hash.go:99-116,
    143-160; densified_minhash.go:60-76, 117-133, 175-191. *)
Definition densify {A} (d : DHash) (empty : A -> bool) (fail : A -> A) (items : list A) : res (list A) :=
  mapM_res (fun '(i, next) =>
      probe_loop 101 empty fail (fun count => ix ← probe_index d i count; sget items ix) 1 next)
    (indexed items).
