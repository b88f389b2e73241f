(** Model of dataset/xcrepo/xcrepo.go. *)
From Verif.Model Require Export Bufio IndexValue.

(** type Example — dataset/dataset.go:9-12; [None] is a nil slice *)
Record Example_ := mkExample { ex_features : option (list Pair); ex_labels : option (list Z) }.

(** Errors — xcrepo.go:33-41, and those of the underlying scanner *)
Inductive xerr :=
  | ErrMalformedHeader | ErrNotEnoughFields | ErrMalformedLabels | ErrMissingFeatures
  | ErrMalformedFeatures | ErrLabelOutOfBounds | ErrFeatureIndexOutOfBounds
  | ErrScanner (e : ioerr).

(** type Scanner — xcrepo.go:22-30.  The line number is an unbounded integer (an int in Go). *)
Record Scanner := mkScanner {
  x_buf : BufScanner; x_err : option xerr; x_line : Z;
  x_totalPoints : Z; x_numFeatures : Z; x_numLabels : Z; x_example : Example_
}.

(** Err — xcrepo.go:58-63 *)
Definition x_Err (s : Scanner) : option xerr :=
  match x_err s with Some e => Some e | None => ErrScanner <$> bufio_Err (x_buf s) end.

Section parse.
  (** strconv.ParseFloat(s, 64); [None] is any error *)
  Context (parseFloat : bytes -> option float64).

  (** Loop of parseLabels — xcrepo.go:124-135: the slice being filled, and the error *)
  Fixpoint labels_loop (numLabels : Z) (dst : list Z) (i : nat) (values : list bytes) : list Z * option xerr :=
    match values with
    | [] => (dst, None)
    | value :: values' =>
        match atoi value with
        | None => (dst, Some ErrMalformedLabels)
        | Some label =>
            if (label <? 0) || (numLabels <=? label) then (dst, Some ErrLabelOutOfBounds)
            else labels_loop numLabels (<[i := label]> dst) (S i) values'
        end
    end.

  (** parseLabels — xcrepo.go:115-137 *)
  Definition parseLabels (numLabels : Z) (str : bytes) : list Z * option xerr :=
    match str with
    | [] => ([], None)
    | _ => let labels := split_on chComma str in
           labels_loop numLabels (replicate (length labels) 0) 0 labels
    end.

  (** Loop of parseFeatures — xcrepo.go:148-175 *)
  Fixpoint features_loop (numFeatures : Z) (dst : list Pair) (i : nat) (pairs : list bytes) : list Pair * option xerr :=
    match pairs with
    | [] => (dst, None)
    | p :: pairs' =>
        match split_on chColon p with
        | [sIndex; sValue] =>
            match atoi sIndex with
            | None => (dst, Some ErrMalformedFeatures)
            | Some featureIndex =>
                if (featureIndex <? 0) || (numFeatures <=? featureIndex) then (dst, Some ErrFeatureIndexOutOfBounds)
                else match parseFloat sValue with
                     | None => (dst, Some ErrMalformedFeatures)
                     | Some featureValue =>
                         features_loop numFeatures (<[i := mkPair featureIndex featureValue]> dst) (S i) pairs'
                     end
            end
        | _ => (dst, Some ErrMalformedFeatures)
        end
    end.

  (** parseFeatures — xcrepo.go:139-178; [None] leaves the slice nil *)
  Definition parseFeatures (numFeatures : Z) (pairs : list bytes) : option (list Pair) * option xerr :=
    match pairs with
    | [] => (None, Some ErrMissingFeatures)
    | _ => let '(fs, e) := features_loop numFeatures (replicate (length pairs) (mkPair 0 fzero)) 0 pairs in
           (Some fs, e)
    end.

  (** Scan, from the split of the line on — xcrepo.go:99-112 (values[1:len(values)] is the tail) *)
  Definition parse_line (numFeatures numLabels : Z) (text : bytes) : Example_ * option xerr :=
    match split_on chSP text with
    | [] => (mkExample None None, Some ErrNotEnoughFields)
    | v0 :: vs =>
        match parseLabels numLabels v0 with
        | (labels, Some e) => (mkExample None (Some labels), Some e)
        | (labels, None) =>
            let '(features, e) := parseFeatures numFeatures vs in
            (mkExample features (Some labels), e)
        end
    end.

  (** Scan — xcrepo.go:85-113 *)
  Definition x_Scan (s : Scanner) : res (bool * Scanner) :=
    let s := {| x_buf := x_buf s; x_err := x_err s; x_line := x_line s; x_totalPoints := x_totalPoints s;
                x_numFeatures := x_numFeatures s; x_numLabels := x_numLabels s;
                x_example := mkExample None None |} in
    match x_Err s with
    | Some _ => Ok (false, s)
    | None =>
        '(ok, b) ← bufio_Scan (x_buf s);
        let s := {| x_buf := b; x_err := x_err s; x_line := x_line s; x_totalPoints := x_totalPoints s;
                    x_numFeatures := x_numFeatures s; x_numLabels := x_numLabels s; x_example := x_example s |} in
        if negb ok || (match bufio_Err b with Some _ => true | None => false end) then Ok (false, s)
        else
          let '(ex, e) := parse_line (x_numFeatures s) (x_numLabels s) (bufio_Text b) in
          Ok (match e with None => true | Some _ => false end,
              {| x_buf := b; x_err := e; x_line := x_line s + 1; x_totalPoints := x_totalPoints s;
                 x_numFeatures := x_numFeatures s; x_numLabels := x_numLabels s; x_example := ex |})
    end.
End parse.

(** Loop of scanHeader — xcrepo.go:195-202 *)
Definition header_ints (values : list bytes) : option (list Z) :=
  mapM (fun v => match atoi v with
                 | Some z => if z <=? 0 then None else Some z
                 | None => None
                 end) values.

(** scanHeader — xcrepo.go:180-207 *)
Definition scanHeader (s : Scanner) : res Scanner :=
  '(_, b) ← bufio_Scan (x_buf s);
  let s := {| x_buf := b; x_err := x_err s; x_line := x_line s; x_totalPoints := x_totalPoints s;
              x_numFeatures := x_numFeatures s; x_numLabels := x_numLabels s; x_example := x_example s |} in
  match bufio_Err b with
  | Some _ => Ok s
  | None =>
      let line := x_line s + 1 in
      let bad := {| x_buf := b; x_err := Some ErrMalformedHeader; x_line := line; x_totalPoints := x_totalPoints s;
                    x_numFeatures := x_numFeatures s; x_numLabels := x_numLabels s; x_example := x_example s |} in
      match split_on chSP (bufio_Text b) with
      | [a; b'; c] =>
          match header_ints [a; b'; c] with
          | Some [t; f; l] =>
              Ok {| x_buf := b; x_err := x_err s; x_line := line; x_totalPoints := t;
                    x_numFeatures := f; x_numLabels := l; x_example := x_example s |}
          | _ => Ok bad
          end
      | _ => Ok bad
      end
  end.

(** NewScanner — xcrepo.go:43-55 *)
Definition x_NewScanner (r : reader) : res Scanner :=
  let s := {| x_buf := bufio_NewScanner r; x_err := None; x_line := 0; x_totalPoints := 0;
              x_numFeatures := 0; x_numLabels := 0; x_example := mkExample None None |} in
  match bufio_Err (x_buf s) with
  | Some _ => Ok s
  | None => scanHeader s
  end.
