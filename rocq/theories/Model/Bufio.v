(** Model of the standard library's bufio.Scanner with ScanLines (Go 1.14, bufio/scan.go), on
    which dataset/xcrepo/xcrepo.go:45,48,62,93,97,181-186 rests, and of strings.Split
    (xcrepo.go:99,121,149,188) and strconv.Atoi (xcrepo.go:125,155,197).  Bytes are integers.
    The library's sources are not in /repo; they are modelled from their published text. *)
From Verif.Model Require Export Base.

Definition bytes := list Z.
Definition chNL : Z := 10.   (* \n *)
Definition chCR : Z := 13.   (* \r *)
Definition chSP : Z := 32.
Definition chComma : Z := 44.
Definition chColon : Z := 58.
Definition chPlus : Z := 43.
Definition chMinus : Z := 45.

(** Errors that the scanner or the reader may report; [IOErr n] is any error of the reader
    other than io.EOF. *)
Inductive ioerr := EOF | IOErr (n : Z) | ErrTooLong | ErrNoProgress.
Global Instance ioerr_eq_dec : EqDecision ioerr.
Proof. solve_decision. Defined.

(** An io.Reader: it will deliver [rd_data] in pieces and then fail with [rd_final].  [rd_chunks]
    bounds the size of each successive read (0 is an empty read without error; when the list runs
    out, reads are as large as the caller allows).  If [rd_early], the error accompanies the last
    bytes instead of coming with an empty read. *)
Record reader := mkReader { rd_data : bytes; rd_chunks : list nat; rd_final : ioerr; rd_early : bool }.

(** r.Read(p) with len(p) = cap *)
Definition rd_read (r : reader) (cap : nat) : bytes * option ioerr * reader :=
  match rd_chunks r with
  | O :: ks => ([], None, {| rd_data := rd_data r; rd_chunks := ks; rd_final := rd_final r; rd_early := rd_early r |})
  | _ =>
      let k := match rd_chunks r with [] => cap | k :: _ => Nat.min k cap end in
      let data' := drop k (rd_data r) in
      let err := if decide (rd_data r = [] \/ (rd_early r = true /\ data' = [])) then Some (rd_final r) else None in
      (take k (rd_data r), err,
       {| rd_data := data'; rd_chunks := tail (rd_chunks r); rd_final := rd_final r; rd_early := rd_early r |})
  end.

(** type Scanner — bufio/scan.go.  [b_cont] is buf[start:end]; the bytes of buf outside that
    range are never used.  The fields empties (ScanLines never returns a token without advancing)
    and done (only set by ErrFinalToken, which ScanLines does not return) are omitted. *)
Record BufScanner := mkBuf {
  b_rd : reader; b_tok : option bytes; b_len : nat; b_start : nat; b_cont : bytes; b_err : option ioerr
}.

(** NewScanner — bufio/scan.go *)
Definition bufio_NewScanner (r : reader) : BufScanner :=
  {| b_rd := r; b_tok := None; b_len := 0; b_start := 0; b_cont := []; b_err := None |}.

(** Err — bufio/scan.go: io.EOF is reported as nil *)
Definition bufio_Err (s : BufScanner) : option ioerr :=
  match b_err s with Some EOF => None | e => e end.

(** Text — bufio/scan.go *)
Definition bufio_Text (s : BufScanner) : bytes := default [] (b_tok s).

(** setErr — bufio/scan.go *)
Definition set_err (cur : option ioerr) (e : ioerr) : option ioerr :=
  match cur with None | Some EOF => Some e | c => c end.

(** dropCR — bufio/scan.go *)
Definition dropCR (data : bytes) : bytes :=
  match last data with
  | Some c => if c =? chCR then take (length data - 1) data else data
  | None => data
  end.

(** bytes.IndexByte *)
Fixpoint index_byte (c : Z) (data : bytes) : option nat :=
  match data with
  | [] => None
  | x :: data' => if x =? c then Some O else S <$> index_byte c data'
  end.

(** ScanLines — bufio/scan.go; result: advance, token *)
Definition ScanLines (data : bytes) (atEOF : bool) : nat * option bytes :=
  if atEOF && (match data with [] => true | _ => false end) then (O, None)
  else match index_byte chNL data with
       | Some i => (S i, Some (dropCR (take i data)))
       | None => if atEOF then (length data, Some (dropCR data)) else (O, None)
       end.

Definition startBufSize : nat := Z.to_nat 4096.
Definition maxTokenSize : nat := Z.to_nat 65536.

(** The inner loop that reads some input — bufio/scan.go; [n] = remaining empty reads
    tolerated (maxConsecutiveEmptyReads = 100). *)
Fixpoint read_loop (n : nat) (s : BufScanner) : BufScanner :=
  let '(bs, err, r) := rd_read (b_rd s) (b_len s - (b_start s + length (b_cont s))) in
  let s := {| b_rd := r; b_tok := b_tok s; b_len := b_len s; b_start := b_start s;
              b_cont := b_cont s ++ bs; b_err := b_err s |} in
  match err with
  | Some e => {| b_rd := b_rd s; b_tok := b_tok s; b_len := b_len s; b_start := b_start s;
                 b_cont := b_cont s; b_err := set_err (b_err s) e |}
  | None =>
      match bs, n with
      | _ :: _, _ => s
      | [], O => {| b_rd := b_rd s; b_tok := b_tok s; b_len := b_len s; b_start := b_start s;
                    b_cont := b_cont s; b_err := set_err (b_err s) ErrNoProgress |}
      | [], S n' => read_loop n' s
      end
  end.

(** Scan — bufio/scan.go.  [fuel] bounds the recursion only. *)
Fixpoint bscan (fuel : nat) (s : BufScanner) : res (bool * BufScanner) :=
  match fuel with
  | O => Panic PFuel
  | S fuel' =>
      (* try to get a token *)
      let s :=
        if (match b_cont s with [] => false | _ => true end) || (match b_err s with Some _ => true | None => false end)
        then let '(adv, tok) := ScanLines (b_cont s) (match b_err s with Some _ => true | None => false end) in
             (* a token stops the loop below; otherwise adv = 0 *)
             {| b_rd := b_rd s; b_tok := tok; b_len := b_len s; b_start := b_start s + adv;
                b_cont := drop adv (b_cont s); b_err := b_err s |}
        else (* the stale token is replaced before Scan returns *)
             {| b_rd := b_rd s; b_tok := None; b_len := b_len s; b_start := b_start s;
                b_cont := b_cont s; b_err := b_err s |} in
      match b_tok s with
      | Some _ => Ok (true, s)
      | None =>
          match b_err s with
          | Some _ => (* no token and no more data *)
              Ok (false, {| b_rd := b_rd s; b_tok := b_tok s; b_len := b_len s; b_start := 0;
                            b_cont := []; b_err := b_err s |})
          | None =>
              (* shift *)
              let full s := Nat.eqb (b_start s + length (b_cont s)) (b_len s) in
              let start := if Nat.ltb 0 (b_start s) && (full s || Nat.ltb (b_len s / 2) (b_start s))
                           then O else b_start s in
              let s := {| b_rd := b_rd s; b_tok := b_tok s; b_len := b_len s; b_start := start;
                          b_cont := b_cont s; b_err := b_err s |} in
              (* grow or give up *)
              if full s && Nat.leb maxTokenSize (b_len s)
              then Ok (false, {| b_rd := b_rd s; b_tok := b_tok s; b_len := b_len s; b_start := b_start s;
                                 b_cont := b_cont s; b_err := set_err (b_err s) ErrTooLong |})
              else
                let s := if full s
                         then {| b_rd := b_rd s; b_tok := b_tok s;
                                 b_len := Nat.min maxTokenSize (if Nat.eqb (b_len s) 0 then startBufSize else b_len s * 2);
                                 b_start := 0; b_cont := b_cont s; b_err := b_err s |}
                         else s in
                bscan fuel' (read_loop 100 s)
          end
      end
  end.

(** Enough fuel: every read delivers a byte or sets the error (proved). *)
Definition bufio_Scan (s : BufScanner) : res (bool * BufScanner) := bscan (length (rd_data (b_rd s)) + 2) s.

(** strings.Split(s, sep) for a one-byte separator — strings/strings.go: genSplit *)
Fixpoint split_on (sep : Z) (s : bytes) : list bytes :=
  match s with
  | [] => [[]]
  | c :: s' =>
      if c =? sep then [] :: split_on sep s'
      else match split_on sep s' with
           | piece :: rest => (c :: piece) :: rest
           | [] => [[c]]
           end
  end.

(** strconv.Atoi: an optional sign, then one or more decimal digits, in the range of int64;
    [None] is any error.  The fast path for short strings and ParseInt agree on this. *)
Definition is_digit (c : Z) : bool := (48 <=? c) && (c <=? 57).
Fixpoint atoi_digits (acc : Z) (s : bytes) : option Z :=
  match s with
  | [] => Some acc
  | c :: s' => if is_digit c then atoi_digits (acc * 10 + (c - 48)) s' else None
  end.
Definition atoi_unsigned (s : bytes) : option Z :=
  match s with [] => None | _ => atoi_digits 0 s end.
Definition atoi (s : bytes) : option Z :=
  let v := match s with
           | c :: s' => if c =? chMinus then Z.opp <$> atoi_unsigned s'
                        else if c =? chPlus then atoi_unsigned s' else atoi_unsigned s
           | [] => None
           end in
  match v with
  | Some z => if (minInt64 <=? z) && (z <=? maxInt64) then Some z else None
  | None => None
  end.
