(** Independent vocabulary for the hash functions. *)
From Verif.Model Require Import IndexValue Densify.

(** [q] is the first position of [vals] that holds a greatest value, among the values greater
    than [lo] ([fltb] is Go's <, false on NaN). *)
Definition first_max (lo : float64) (vals : list float64) (q : nat) : Prop :=
  exists v, vals !! q = Some v /\ fltb lo v = true /\
    (forall q' v', vals !! q' = Some v' -> fltb v v' = false) /\
    (forall q' v', (q' < q)%nat -> vals !! q' = Some v' -> fltb lo v' = true -> fltb v' v = true).

(** No value of [vals] is greater than [lo]. *)
Definition none_above (lo : float64) (vals : list float64) : Prop :=
  forall q v, vals !! q = Some v -> fltb lo v = false.

(** The dense vector of length [n] represented by index/value pairs (absent features are +0;
    the first pair wins if an index is repeated). *)
Definition dense_of (n : Z) (pairs : list Pair) : list float64 :=
  map (fun i => match list_find (fun p => iv_index p = i) pairs with
                | Some (_, p) => iv_value p
                | None => fzero
                end) (seqZ 0 n).

(** Entries of bin [b] in the tables of DWTA, in the order in which (permutation, position)
    pairs are visited: the position inside the bin and the value found there. [vals] is the data,
    [n] the table width, [k] the number of permutations. *)
Definition bin_entries (indices pos : list Z) (k n : Z) (vals : list float64) (b : Z)
    : list (Z * float64) :=
  flat_map (fun p =>
    omap (fun i =>
        match indices !! Z.to_nat (p * n + Z.of_nat i), pos !! Z.to_nat (p * n + Z.of_nat i), vals !! i with
        | Some b', Some q, Some v => if decide (b' = b) then Some (q, v) else None
        | _, _, _ => None
        end) (seq 0 (length vals))) (seqZ 0 k).

(** Probe number [c] of bin [i] looks at bin [ix] = min(GetRandDoubleHash(i, c), numHashes-1). *)
Definition probes (d : DHash) (i c ix : Z) : Prop :=
  exists r, GetRandDoubleHash d i c = Ok r /\ ix = Z.min r (dh_numHashes d - 1).

(** Bin [ix] is the first non-empty one among the first 100 probes of bin [i]. *)
Definition borrows_from (d : DHash) (empty : Z -> Prop) (i ix : Z) : Prop :=
  exists c, 1 <= c <= 100 /\ probes d i c ix /\ ~ empty ix /\
    forall c', 1 <= c' < c -> exists ix', probes d i c' ix' /\ empty ix'.

(** The first 100 probes of bin [i] all look at empty bins. *)
Definition borrows_nothing (d : DHash) (empty : Z -> Prop) (i : Z) : Prop :=
  forall c, 1 <= c <= 100 -> exists ix, probes d i c ix /\ empty ix.

(** [q] is the position kept by "take the first value, then replace it by every strictly greater
    one": the first greatest value, except that a NaN in front is never replaced. *)
Definition sticky_max (vals : list float64) (q : nat) : Prop :=
  exists v0, vals !! O = Some v0 /\
    if is_nan v0 then q = O
    else exists v, vals !! q = Some v /\ is_nan v = false /\
      (forall q' v', vals !! q' = Some v' -> fltb v v' = false) /\
      (forall q' v', (q' < q)%nat -> vals !! q' = Some v' -> is_nan v' = false -> fltb v' v = true).

(** [kept] are [k] distinct positions of [vals] such that no other position has a greater value. *)
Definition k_largest (k : Z) (vals : list float64) (kept : list Z) : Prop :=
  NoDup kept /\ Z.of_nat (length kept) = k /\
  (forall i, i ∈ kept -> 0 <= i < Z.of_nat (length vals)) /\
  forall i j v w, i ∈ kept -> ~ j ∈ kept -> 0 <= j ->
    vals !! Z.to_nat i = Some v -> vals !! Z.to_nat j = Some w -> fltb v w = false.

(** ... such that no other position has a smaller value. *)
Definition k_smallest (k : Z) (vals : list float64) (kept : list Z) : Prop :=
  NoDup kept /\ Z.of_nat (length kept) = k /\
  (forall i, i ∈ kept -> 0 <= i < Z.of_nat (length vals)) /\
  forall i j v w, i ∈ kept -> ~ j ∈ kept -> 0 <= j ->
    vals !! Z.to_nat i = Some v -> vals !! Z.to_nat j = Some w -> fltb w v = false.

(** Index [ix] is listed among the first [n] of [indices] and mapped to bin [b]. *)
Definition listed_in (indices : list Z) (n : nat) (binIds : list Z) (b ix : Z) : Prop :=
  ix ∈ take n indices /\ binIds !! Z.to_nat ix = Some b.
