(** Independent description of the Extreme Classification Repository format and of call sequences
    on a scanner. *)
From Verif.Model Require Import Xcrepo.

(** The lines of a text: the pieces between newlines; a newline at the very end does not start
    another line. *)
Fixpoint raw_lines (data : bytes) : list bytes :=
  match data with
  | [] => []
  | c :: data' =>
      if c =? chNL then [] :: raw_lines data'
      else match raw_lines data' with
           | [] => [[c]]
           | l :: ls => (c :: l) :: ls
           end
  end.

(** A line without its optional carriage return. *)
Definition line_text (raw t : bytes) : Prop :=
  raw = t ++ [chCR] \/ (raw = t /\ last t <> Some chCR).

(** Number of newlines, i.e. of complete lines. *)
Definition newlines (data : list Z) : nat := length (filter (fun c => c = chNL) data).

(** [sep].join(pieces) *)
Fixpoint join (sep : Z) (pieces : list bytes) : bytes :=
  match pieces with
  | [] => []
  | [p] => p
  | p :: ps => p ++ sep :: join sep ps
  end.

(** Decimal notation of an int: optional sign, at least one digit, within the range of int. *)
Definition decimal (digits : bytes) : Z := fold_left (fun a c => 10 * a + (c - 48)) digits 0.
Definition int_text (t : bytes) (z : Z) : Prop :=
  exists digits, digits <> [] /\ Forall (fun c => 48 <= c <= 57) digits /\ in_int64 z /\
    ((t = digits /\ z = decimal digits) \/ (t = chPlus :: digits /\ z = decimal digits) \/
     (t = chMinus :: digits /\ z = - decimal digits)).

(** "index:value" *)
Definition feature_text (pf : bytes -> option float64) (F : Z) (t : bytes) (p : Pair) : Prop :=
  exists ti tv, t = ti ++ chColon :: tv /\ int_text ti (iv_index p) /\ 0 <= iv_index p < F /\
    ~ chSP ∈ tv /\ ~ chColon ∈ tv /\ pf tv = Some (iv_value p).

(** A line of the file: "l1,l2,... i1:v1 i2:v2 ..." with at least one feature, labels in [0,L) and
    feature indices in [0,F); [pf] gives the meaning of number texts. *)
Definition example_line (pf : bytes -> option float64) (F L : Z) (t : bytes) (labels : list Z) (features : list Pair) : Prop :=
  exists lts fts, t = join chSP (join chComma lts :: fts) /\ fts <> [] /\
    Forall2 (fun lt l => int_text lt l /\ 0 <= l < L) lts labels /\
    Forall2 (feature_text pf F) fts features.

(** The first line: "points features labels", three positive integers. *)
Definition header_line (t : bytes) (P F L : Z) : Prop :=
  exists a b c, t = join chSP [a; b; c] /\ int_text a P /\ int_text b F /\ int_text c L /\
    0 < P /\ 0 < F /\ 0 < L.

(** A reader that makes progress: no 101 empty reads in a row. *)
Definition no_stall (chunks : list nat) : Prop :=
  forall i, exists j, (j <= 100)%nat /\ chunks !! (i + j)%nat <> Some O.

(** Every line, with its newline, fits in the scanner's 64 KiB buffer. *)
Definition lines_fit (data : bytes) : Prop :=
  Forall (fun l => Z.of_nat (length l) < 65536) (raw_lines data).

(** [n] calls of Scan: what each returned and what Example() was after it. *)
Fixpoint x_calls (pf : bytes -> option float64) (n : nat) (s : Scanner) : res (list (bool * Example_) * Scanner) :=
  match n with
  | O => Ok ([], s)
  | S n' =>
      '(ok, s1) ← x_Scan pf s;
      '(obs, s2) ← x_calls pf n' s1;
      Ok ((ok, x_example s1) :: obs, s2)
  end.
(** NewScanner followed by [n] calls of Scan. *)
Definition x_run (pf : bytes -> option float64) (r : reader) (n : nat) : res (list (bool * Example_) * Scanner) :=
  s ← x_NewScanner r; x_calls pf n s.

Definition no_example : Example_ := mkExample None None.
Definition example (labels : list Z) (features : list Pair) : Example_ := mkExample (Some features) (Some labels).

(** A writer of the format, for the round trip; [fmt] writes the feature values. *)
Fixpoint digits_of (fuel : nat) (z : Z) : bytes :=
  match fuel with
  | O => []
  | S fuel' => if z <? 10 then [48 + z] else digits_of fuel' (z / 10) ++ [48 + z mod 10]
  end.
Definition write_nat (z : Z) : bytes := digits_of 20 z.
Definition write_header (P F L : Z) : bytes := join chSP [write_nat P; write_nat F; write_nat L].
Definition write_feature (fmt : float64 -> bytes) (p : Pair) : bytes :=
  write_nat (iv_index p) ++ chColon :: fmt (iv_value p).
Definition write_example (fmt : float64 -> bytes) (e : list Z * list Pair) : bytes :=
  join chSP (join chComma (map write_nat (fst e)) :: map (write_feature fmt) (snd e)).
Definition write_file (fmt : float64 -> bytes) (P F L : Z) (es : list (list Z * list Pair)) : bytes :=
  concat (map (fun t => t ++ [chNL]) (write_header P F L :: map (write_example fmt) es)).

(** Failures that are not due to the contents of a line: the reader's own error, a reader that
    stalls, a line longer than the buffer. *)
Definition scan_failure (r : reader) (e : ioerr) : Prop :=
  e = rd_final r \/ (e = ErrNoProgress /\ ~ no_stall (rd_chunks r)) \/
  (e = ErrTooLong /\ ~ lines_fit (rd_data r)).

(** Examples a writer can write: labels and indices in range, at least one feature, and values whose
    text [pf] reads back and which contains no separator. *)
Definition writable (pf : bytes -> option float64) (fmt : float64 -> bytes) (F L : Z) (e : list Z * list Pair) : Prop :=
  Forall (fun l => 0 <= l < L) (fst e) /\ snd e <> [] /\
  Forall (fun p => 0 <= iv_index p < F /\ pf (fmt (iv_value p)) = Some (iv_value p) /\
                   Forall (fun c => c <> chSP /\ c <> chColon /\ c <> chNL /\ c <> chCR) (fmt (iv_value p))) (snd e).

