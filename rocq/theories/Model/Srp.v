(** Model of sparse_random_projection/sparse_random_projection.go. *)
From Verif.Model Require Export IndexValue.
From stdpp Require Import sorting.
Local Open Scope Z_scope.

(** type SparseRandomProjection — sparse_random_projection.go:16-22 *)
Record Srp := mkSrp {
  srp_dim : Z; srp_numHashes : Z; srp_samSize : Z;
  srp_randBits : list (list bool); srp_indices : list (list Z)
}.

(** sort.Ints: the sorted permutation. *)
Definition sort_ints (l : list Z) : list Z := merge_sort Z.le l.

(** Inner loop of New — sparse_random_projection.go:43-46 *)
Definition srp_sample (a : list Z) (st : list Z * list bool * rng) (j : Z) : res (list Z * list bool * rng) :=
  let '(ind, bits, g) := st in
  x ← sget a j;
  let '(r, g) := rand_int g in
  Ok (ind ++ [x], bits ++ [Z.rem r 2 =? 0], g).

(** Outer loop of New — sparse_random_projection.go:37-49 *)
Definition srp_step (samSize : Z) (st : list Z * list (list Z) * list (list bool) * rng) (_ : Z)
    : res (list Z * list (list Z) * list (list bool) * rng) :=
  let '(a, indices, randBits, g) := st in
  let '(a, g) := shuffle a g in
  _ ← make_slice false samSize;
  _ ← make_slice 0 samSize;
  '(ind, bits, g) ← foldM (srp_sample a) ([], [], g) (seqZ 0 samSize);
  Ok (a, indices ++ [sort_ints ind], randBits ++ [bits], g).

(** New — sparse_random_projection.go:24-58 *)
Definition srp_New (dimension numOfHashes ratio : Z) (g : rng) : res (Srp * rng) :=
  let samSize := int_ceil (fdiv (f_of_Z dimension) (f_of_Z ratio)) in
  a ← make_slice 0 dimension;
  let a := seqZ 0 (Z.of_nat (length a)) in
  _ ← make_slice (@nil bool) numOfHashes;
  '(_, indices, randBits, g) ← foldM (srp_step samSize) (a, [], [], g) (seqZ 0 numOfHashes);
  Ok ({| srp_dim := dimension; srp_numHashes := numOfHashes; srp_samSize := samSize;
         srp_randBits := randBits; srp_indices := indices |}, g).

(** s += v or s -= v — sparse_random_projection.go:68-72, 97-101 *)
Definition srp_acc (s : float64) (rb : bool) (v : float64) : float64 :=
  if rb then fadd s v else fsub s v.

(** if s >= 0 { 0 } else { 1 } — sparse_random_projection.go:75-79, 111-115 *)
Definition srp_sign (s : float64) : Z := if fgeb s fzero then 0 else 1.

(** Loop body of GetHash — sparse_random_projection.go:64-79 *)
Definition srp_hash_dense (t : Srp) (vector : list float64) (i : Z) : res Z :=
  bits ← sget (srp_randBits t) i;
  s ← foldM (fun s '(j, rb) =>
        ind ← sget (srp_indices t) i;
        ix ← sget ind j;
        v ← sget vector ix;
        Ok (srp_acc s rb v)) fzero (indexed bits);
  Ok (srp_sign s).

(** GetHash — sparse_random_projection.go:60-83 *)
Definition srp_GetHash (t : Srp) (vector : list float64) : res (list Z) :=
  hashes ← make_slice 0 (srp_numHashes t);
  mapM_res (srp_hash_dense t vector) (seqZ 0 (Z.of_nat (length hashes))).

(** Merge loop of GetHashSparse — sparse_random_projection.go:94-109.  Each iteration advances
    i or j, so len(data) + samSize iterations suffice ([fuel]). *)
Fixpoint srp_merge (fuel : nat) (t : Srp) (data : list Pair) (p i j : Z) (s : float64) : res float64 :=
  if (i <? Z.of_nat (length data)) && (j <? srp_samSize t) then
    match fuel with
    | O => Panic PFuel
    | S fuel' =>
        d ← sget data i;
        ind ← sget (srp_indices t) p;
        ix ← sget ind j;
        if iv_index d =? ix then
          bits ← sget (srp_randBits t) p;
          rb ← sget bits j;
          srp_merge fuel' t data p (i + 1) (j + 1) (srp_acc s rb (iv_value d))
        else if iv_index d <? ix then srp_merge fuel' t data p (i + 1) j s
        else srp_merge fuel' t data p i (j + 1) s
    end
  else Ok s.

(** GetHashSparse — sparse_random_projection.go:85-119 *)
Definition srp_GetHashSparse (t : Srp) (data : list Pair) : res (list Z) :=
  hashes ← make_slice 0 (srp_numHashes t);
  mapM_res (fun p =>
      s ← srp_merge (length data + Z.to_nat (srp_samSize t)) t data p 0 0 fzero;
      Ok (srp_sign s)) (seqZ 0 (Z.of_nat (length hashes))).
