(** Model of the standard library's container/heap (Go 1.14), used by densified_minhash/densified_minhash.go:93,97,98,151,155,156.
    The heap is a list; Less and Swap are those of the queue. *)
From Verif.Model Require Export Base.

Section heap.
  Context {A : Type} (less : A -> A -> bool).

  (** h.Less(i, j) and h.Swap(i, j) with Go's bounds checks *)
  Definition h_less (h : list A) (i j : Z) : res bool :=
    x ← sget h i; y ← sget h j; Ok (less x y).
  Definition h_swap (h : list A) (i j : Z) : res (list A) :=
    x ← sget h i; y ← sget h j; h ← sset h i y; sset h j x.

  (** up(h, j) — container/heap/heap.go *)
  Fixpoint h_up (fuel : nat) (h : list A) (j : Z) : res (list A) :=
    match fuel with
    | O => Panic PFuel
    | S fuel' =>
        let i := Z.quot (j - 1) 2 in
        if i =? j then Ok h
        else
          b ← h_less h j i;
          if negb b then Ok h
          else h ← h_swap h i j; h_up fuel' h i
    end.

  (** down(h, i, n) — container/heap/heap.go (the boolean result is not used by
      Init and Pop) *)
  Fixpoint h_down (fuel : nat) (h : list A) (i n : Z) : res (list A) :=
    match fuel with
    | O => Panic PFuel
    | S fuel' =>
        let j1 := 2 * i + 1 in
        if (n <=? j1) || (j1 <? 0) then Ok h
        else
          let j2 := j1 + 1 in
          j ← (if j2 <? n then b ← h_less h j2 j1; Ok (if b : bool then j2 else j1) else Ok j1);
          b ← h_less h j i;
          if negb b then Ok h
          else h ← h_swap h i j; h_down fuel' h j n
    end.

  (** Init(h) — container/heap/heap.go *)
  Definition h_Init (h : list A) : res (list A) :=
    let n := Z.of_nat (length h) in
    foldM (fun h i => h_down (S (length h)) h i n) h (rev (seqZ 0 (Z.quot n 2))).

  (** Push(h, x) — container/heap/heap.go, with Push appending *)
  Definition h_Push (h : list A) (x : A) : res (list A) :=
    let h := h ++ [x] in h_up (S (length h)) h (Z.of_nat (length h) - 1).

  (** x.Pop(): remove and return the last element *)
  Definition h_pop_last (h : list A) : res (A * list A) :=
    x ← sget h (Z.of_nat (length h) - 1); Ok (x, take (length h - 1) h).

  (** Pop(h) — container/heap/heap.go *)
  Definition h_Pop (h : list A) : res (A * list A) :=
    let n := Z.of_nat (length h) - 1 in
    h ← h_swap h 0 n;
    h ← h_down (S (length h)) h 0 n;
    h_pop_last h.
End heap.
