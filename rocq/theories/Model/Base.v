(** Go run-time conventions shared by the whole model: panics as values,
    bounds-checked slices, 64-bit integers, random streams.

    Not a model of any goslide function: it models the Go language and the
    few standard-library calls named below. *)
From stdpp Require Export prelude list list_numbers.
From Coq Require Export ZArith.
Global Open Scope Z_scope.

(** Run-time panics.  [PMsg] is [panic("...")] with the code's own text. *)
Inductive gopanic : Type :=
  | PIndex            (* index out of range *)
  | PSlice            (* slice bounds out of range *)
  | PMakeSlice        (* makeslice: len out of range *)
  | PDivZero          (* integer divide by zero *)
  | PNegShift         (* negative shift amount *)
  | PRandArg          (* rand.Intn / rand.Shuffle: invalid argument *)
  | PNil              (* nil pointer dereference *)
  | PFuel             (* model artefact: loop fuel exhausted; excluded by theorems *)
  | PMsg (n : nat).   (* explicit panic call; n identifies the message *)

Inductive res (A : Type) : Type :=
  | Ok (a : A)
  | Panic (p : gopanic).
Arguments Ok {A} a.
Arguments Panic {A} p.

Global Instance res_ret : MRet res := fun A a => Ok a.
Global Instance res_bind : MBind res := fun A B f m =>
  match m with Ok a => f a | Panic p => Panic p end.

Definition is_ok {A} (r : res A) : Prop := exists a, r = Ok a.

(** [for _, x := range xs { s = f(s, x) }] where the body may panic. *)
Fixpoint foldM {S A} (f : S -> A -> res S) (s : S) (xs : list A) : res S :=
  match xs with
  | [] => Ok s
  | x :: xs' => match f s x with Ok s' => foldM f s' xs' | Panic p => Panic p end
  end.

(** [for i, x := range xs { ... }]: the range expression paired with indices. *)
Definition indexed {A} (xs : list A) : list (Z * A) :=
  zip (seqZ 0 (Z.of_nat (length xs))) xs.

(** Build a slice element by element, [for i := range r { r[i] = f(i) }]. *)
Fixpoint mapM_res {A B} (f : A -> res B) (xs : list A) : res (list B) :=
  match xs with
  | [] => Ok []
  | x :: xs' =>
      match f x with
      | Panic p => Panic p
      | Ok y => match mapM_res f xs' with Panic p => Panic p | Ok ys => Ok (y :: ys) end
      end
  end.

(** [xs[i]] *)
Definition sget {A} (xs : list A) (i : Z) : res A :=
  if i <? 0 then Panic PIndex
  else match xs !! Z.to_nat i with Some x => Ok x | None => Panic PIndex end.

(** [xs[i] = v] *)
Definition sset {A} (xs : list A) (i : Z) (v : A) : res (list A) :=
  if i <? 0 then Panic PIndex
  else if decide (Z.to_nat i < length xs)%nat
       then Ok (<[Z.to_nat i := v]> xs) else Panic PIndex.

(** [make([]T, n)] filled with the zero value [d]. *)
Definition make_slice {A} (d : A) (n : Z) : res (list A) :=
  if n <? 0 then Panic PMakeSlice else Ok (replicate (Z.to_nat n) d).

(** Two's-complement 64-bit [int] and [uint] (amd64). *)
Definition wrap64 (z : Z) : Z := (z + 2^63) mod 2^64 - 2^63.
Definition u64 (z : Z) : Z := z mod 2^64.
Definition minInt64 : Z := - 2^63.
Definition maxInt64 : Z := 2^63 - 1.
Definition in_int64 (z : Z) : Prop := minInt64 <= z <= maxInt64.

(** Go [<<] on uint with a signed count: panics on negative counts; the result
    wraps, and is 0 when the count is >= 64. *)
Definition shl64 (x n : Z) : res Z :=
  if n <? 0 then Panic PNegShift
  else if 64 <=? n then Ok 0 else Ok (u64 (Z.shiftl x n)).

(** Go [>>] on uint. *)
Definition shr64 (x n : Z) : res Z :=
  if n <? 0 then Panic PNegShift
  else if 64 <=? n then Ok 0 else Ok (Z.shiftr x n).

(** Go [1 << n] converted to [int] (used as a slice length). *)
Definition int_pow2 (n : Z) : res Z :=
  if n <? 0 then Panic PNegShift
  else if 64 <=? n then Ok 0 else Ok (wrap64 (2 ^ n)).

(** Random source: an arbitrary stream of integers and a read position.
    rand.Seed (time-based in the code) has no effect on an arbitrary stream. *)
Record rng := mkRng { rstream : nat -> Z; rpos : nat }.

Definition draw (g : rng) : Z * rng :=
  (rstream g (rpos g), {| rstream := rstream g; rpos := S (rpos g) |}).

(** A uniform choice in [0,n) for n > 0: any value of the range, as the stream decides. *)
Definition draw_below (n : Z) (g : rng) : Z * rng :=
  let '(z, g') := draw g in (z mod n, g').

(** math/rand.Int: a value in [0, 2^63). *)
Definition rand_int (g : rng) : Z * rng := draw_below (2^63) g.

(** math/rand.Intn(n): panics when n <= 0. *)
Definition rand_intn (n : Z) (g : rng) : res (Z * rng) :=
  if n <=? 0 then Panic PRandArg else Ok (draw_below n g).

(** [a[i], a[j] = a[j], a[i]] on in-range positions. *)
Definition swap_at {A} (i j : nat) (l : list A) : list A :=
  match l !! i, l !! j with
  | Some x, Some y => <[i := y]> (<[j := x]> l)
  | _, _ => l
  end.

(** math/rand.Shuffle(n, swap): for i = n-1 down to 1, swap(i, j) with j random in [0,i].
    (Structural recursion on [i]; [i = 0] does nothing.) *)
Fixpoint fisher_yates {A} (i : nat) (l : list A) (g : rng) : list A * rng :=
  match i with
  | O => (l, g)
  | S i' =>
      let '(j, g') := draw_below (Z.of_nat (S i)) g in
      fisher_yates i' (swap_at i (Z.to_nat j) l) g'
  end.

(** rand.Shuffle(len(l), swap l). *)
Definition shuffle {A} (l : list A) (g : rng) : list A * rng :=
  fisher_yates (Nat.pred (length l)) l g.

(** positiveOddRandomInt — lsh/lsh.go:123-129,
    densified_wta_hash/densified_wta_hash.go:170-176,
    densified_minhash/densified_minhash.go:228-234 (three identical copies). *)
Definition positiveOddRandomInt (g : rng) : Z * rng :=
  let '(n, g') := rand_int g in
  if n mod 2 =? 0 then (wrap64 (n + 1), g') else (n, g').

(** [n] consecutive draws of [positiveOddRandomInt], e.g. filling rand1. *)
Fixpoint oddRandoms (n : nat) (g : rng) : list Z * rng :=
  match n with
  | O => ([], g)
  | S n' => let '(x, g1) := positiveOddRandomInt g in
            let '(xs, g2) := oddRandoms n' g1 in (x :: xs, g2)
  end.

(** copy(dst, src): overwrites the first min(len dst, len src) elements. *)
Definition go_copy {A} (dst src : list A) : list A :=
  take (length dst) src ++ drop (length src) dst.

(** copy(dst[lo:hi], src); the capacity of dst is taken to be its length. *)
Definition copy_range {A} (dst : list A) (lo hi : Z) (src : list A) : res (list A) :=
  if (0 <=? lo) && (lo <=? hi) && (hi <=? Z.of_nat (length dst)) then
    Ok (take (Z.to_nat lo) dst
        ++ go_copy (take (Z.to_nat (hi - lo)) (drop (Z.to_nat lo) dst)) src
        ++ drop (Z.to_nat hi) dst)
  else Panic PSlice.
