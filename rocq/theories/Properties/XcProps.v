(** C33-C39: the scanner of Extreme Classification Repository files.  [pf] stands for
    strconv.ParseFloat (any function). *)
From Verif.Model Require Import Xcrepo.
From Verif.Spec Require Import XcSpec.
From Verif.Proofs Require Import XcProofs.
From Coq Require Import Lia.

(** ** A file for the examples: "2 4 3\n0,2 1:7 3:8\n1 0:7\n"; the text "7" means 1.0 and "8" means 2.0 *)
Definition pf_ex (t : bytes) : option float64 :=
  if decide (t = [55]) then Some fone else if decide (t = [56]) then Some (fadd fone fone) else None.
Definition file_ex : bytes :=
  [50;32;52;32;51;10; 48;44;50;32;49;58;55;32;51;58;56;10; 49;32;48;58;55;10].
Definition reader_ex (e : ioerr) : reader := mkReader file_ex [3;0;5;1]%nat e false.
Definition features1_ex : list Pair := [mkPair 1 fone; mkPair 3 (fadd fone fone)].
Definition features2_ex : list Pair := [mkPair 0 fone].

(** Reading the example file *)
Example Xc_run_example :
  ('(obs, s) ← x_run pf_ex (reader_ex EOF) 3; Ok (obs, x_Err s, x_line s))
  = Ok ([(true, example [0; 2] features1_ex); (true, example [1] features2_ex); (false, no_example)], None, 3).
Proof. vm_compute. reflexivity. Qed.

(** No input, chunking or error makes the scanner panic or loop. *)
Theorem C33_scanner_total : forall pf r n,
  exists obs s, x_run pf r n = Ok (obs, s) /\ length obs = n.
Proof. exact scanner_total. Qed.
Print Assumptions C33_scanner_total.

(** After a Scan that returned false, all later ones do, and LineNumber and Err keep their values. *)
Theorem C33_sticky : forall pf r n obs s s1,
  x_run pf r n = Ok (obs, s) -> x_Scan pf s = Ok (false, s1) ->
  forall m, exists s2, x_calls pf m s1 = Ok (replicate m (false, no_example), s2) /\
    x_Err s2 = x_Err s1 /\ x_line s2 = x_line s1.
Proof. exact sticky. Qed.
Print Assumptions C33_sticky.
(** after both examples were read, and after a malformed line *)
Example C33_sticky_example :
  ('(obs, s) ← x_run pf_ex (reader_ex EOF) 2; '(ok, s1) ← x_Scan pf_ex s; Ok (ok, x_Err s1, x_line s1)) = Ok (false, None, 3) /\
  ('(obs, s) ← x_run pf_ex (mkReader (file_ex ++ [120;10] ++ file_ex) [] EOF false) 2; '(ok, s1) ← x_Scan pf_ex s;
   Ok (ok, x_Err s1, x_line s1)) = Ok (false, Some ErrMalformedLabels, 4).
Proof. split; vm_compute; reflexivity. Qed.

Theorem C34_example_in_bounds : forall pf r n obs s s1,
  x_run pf r n = Ok (obs, s) -> x_Scan pf s = Ok (true, s1) ->
  exists labels features, x_example s1 = example labels features /\
    Forall (fun l => 0 <= l < x_numLabels s1) labels /\
    features <> [] /\ Forall (fun p => 0 <= iv_index p < x_numFeatures s1) features /\
    0 < x_totalPoints s1 /\ 0 < x_numFeatures s1 /\ 0 < x_numLabels s1.
Proof. exact run_bounds. Qed.
Print Assumptions C34_example_in_bounds.
Example C34_example :
  ('(obs, s) ← x_run pf_ex (reader_ex EOF) 0; '(ok, s1) ← x_Scan pf_ex s; Ok (ok, x_example s1))
  = Ok (true, example [0; 2] features1_ex).
Proof. vm_compute. reflexivity. Qed.

(** A file all of whose lines are in the format is delivered completely and in order, whatever the
    chunks in which the reader delivers it; [k] further calls return false. *)
Theorem C35_scan_file : forall pf r h ht lines es P F L k,
  rd_final r = EOF -> no_stall (rd_chunks r) -> lines_fit (rd_data r) ->
  raw_lines (rd_data r) = h :: lines -> line_text h ht -> header_line ht P F L ->
  Forall2 (fun raw e => exists t, line_text raw t /\ example_line pf F L t (fst e) (snd e)) lines es ->
  exists s, x_run pf r (length es + k) =
      Ok (map (fun e => (true, example (fst e) (snd e))) es ++ replicate k (false, no_example), s) /\
    x_Err s = None /\ x_totalPoints s = P /\ x_numFeatures s = F /\ x_numLabels s = L.
Proof. exact scan_file. Qed.
Print Assumptions C35_scan_file.

(** Reading what was written. *)
Theorem C35_scan_write : forall pf fmt P F L es chunks early k,
  0 < P <= maxInt64 -> 0 < F <= maxInt64 -> 0 < L <= maxInt64 ->
  Forall (writable pf fmt F L) es -> no_stall chunks ->
  Forall (fun e => Z.of_nat (length (write_example fmt e)) < 65536) es ->
  exists s, x_run pf (mkReader (write_file fmt P F L es) chunks EOF early) (length es + k) =
      Ok (map (fun e => (true, example (fst e) (snd e))) es ++ replicate k (false, no_example), s) /\
    x_Err s = None /\ x_totalPoints s = P /\ x_numFeatures s = F /\ x_numLabels s = L.
Proof. exact roundtrip. Qed.
Print Assumptions C35_scan_write.

Definition fmt_ex (v : float64) : bytes := if feqb v fone then [55] else [56].
Definition examples_ex : list (list Z * list Pair) := [([0; 2], features1_ex); ([1], features2_ex); ([], features2_ex)].
Example C35_example :
  write_file fmt_ex 2 4 3 (take 2 examples_ex) = file_ex /\
  Forall (writable pf_ex fmt_ex 4 3) examples_ex /\ no_stall [3;0;5;1]%nat /\
  Forall (fun e => Z.of_nat (length (write_example fmt_ex e)) < 65536) examples_ex.
Proof.
  split; [vm_compute; reflexivity|].
  assert (Hone : pf_ex (fmt_ex fone) = Some fone) by (vm_compute; reflexivity).
  assert (Htwo : pf_ex (fmt_ex (fadd fone fone)) = Some (fadd fone fone)) by (vm_compute; reflexivity).
  assert (Fone : Forall (fun c => c <> chSP /\ c <> chColon /\ c <> chNL /\ c <> chCR) (fmt_ex fone))
    by (vm_compute; repeat constructor; discriminate).
  assert (Ftwo : Forall (fun c => c <> chSP /\ c <> chColon /\ c <> chNL /\ c <> chCR) (fmt_ex (fadd fone fone)))
    by (vm_compute; repeat constructor; discriminate).
  split; [|split].
  - unfold examples_ex. constructor; [|constructor; [|constructor; [|constructor]]].
    all: unfold writable, features1_ex, features2_ex; cbn [fst snd].
    all: split; [repeat (constructor; [lia|]); constructor|]. all: split; [discriminate|].
    + constructor; [cbn [iv_index iv_value]; split; [lia|done]|].
      constructor; [cbn [iv_index iv_value]; split; [lia|done]|constructor].
    + constructor; [cbn [iv_index iv_value]; split; [lia|done]|constructor].
    + constructor; [cbn [iv_index iv_value]; split; [lia|done]|constructor].
  - intros i. destruct (decide (i = 1%nat)) as [->|Hi]; [exists 1%nat; split; [lia|done]|].
    exists 0%nat. split; [lia|]. rewrite Nat.add_0_r. do 4 (destruct i as [|i]; [cbn; congruence|]). by destruct i.
  - unfold examples_ex. constructor; [|constructor; [|constructor; [|constructor]]];
      apply Z.ltb_lt; vm_compute; reflexivity.
Qed.

(** With a failing reader, an example is built only from a line whose newline was delivered, and
    otherwise there is an error. *)
Theorem C36_no_truncated_line : forall pf r n obs s ok s1,
  rd_final r <> EOF ->
  x_run pf r n = Ok (obs, s) -> x_Scan pf s = Ok (ok, s1) ->
  if ok then exists before raw after t labels features,
      rd_data r = before ++ raw ++ chNL :: after /\ ~ chNL ∈ raw /\
      Z.of_nat (newlines before) + 1 = x_line s1 /\
      line_text raw t /\ example_line pf (x_numFeatures s1) (x_numLabels s1) t labels features /\
      x_example s1 = example labels features
  else x_Err s1 <> None.
Proof. exact run_truncated. Qed.
Print Assumptions C36_no_truncated_line.

(** An error of the underlying scanner is the reader's, unless the reader stalls or a line is too long. *)
Theorem C36_scanner_error : forall pf r n obs s e,
  x_run pf r n = Ok (obs, s) -> x_Err s = Some (ErrScanner e) -> scan_failure r e.
Proof. exact run_failure. Qed.
Print Assumptions C36_scanner_error.

(** the file cut after "...0:7" of its last line: the first example only *)
Example C36_example :
  ('(obs, s) ← x_run pf_ex (mkReader (take 23 file_ex) [2;9]%nat (IOErr 5) false) 2; Ok (obs, x_Err s, x_line s))
  = Ok ([(true, example [0; 2] features1_ex); (false, no_example)], Some (ErrScanner (IOErr 5)), 2).
Proof. vm_compute. reflexivity. Qed.

Theorem C37_line_number_start : forall r s,
  x_NewScanner r = Ok s ->
  (x_line s = 1 /\ forall e, x_Err s <> Some (ErrScanner e)) \/
  (x_line s = 0 /\ exists e, x_Err s = Some (ErrScanner e) /\ scan_failure r e).
Proof. exact new_line. Qed.
Print Assumptions C37_line_number_start.

(** A Scan consumes the line whose number LineNumber then is, and its result tells whether that line
    is in the format; or it consumes nothing, because the lines are exhausted, the underlying scanner
    failed or there was an error before. *)
Theorem C37_line_number_scan : forall pf r n obs s ok s1,
  x_run pf r n = Ok (obs, s) -> x_Scan pf s = Ok (ok, s1) ->
  (x_line s1 = x_line s + 1 /\ x_Err s = None /\
   exists raw t, raw_lines (rd_data r) !! Z.to_nat (x_line s1 - 1) = Some raw /\ line_text raw t /\
     if ok then x_Err s1 = None /\ exists labels features, example_line pf (x_numFeatures s1) (x_numLabels s1) t labels features /\
                  x_example s1 = example labels features
     else is_Some (x_Err s1) /\ (forall e, x_Err s1 <> Some (ErrScanner e)) /\
          forall labels features, ~ example_line pf (x_numFeatures s1) (x_numLabels s1) t labels features) \/
  (x_line s1 = x_line s /\ ok = false /\
   (x_Err s = None -> x_Err s1 = None -> x_line s1 = Z.of_nat (length (raw_lines (rd_data r)))) /\
   (x_Err s = None -> x_Err s1 = None \/ exists e, x_Err s1 = Some (ErrScanner e))).
Proof. exact run_line. Qed.
Print Assumptions C37_line_number_scan.
(** a label out of bounds in line 3 *)
Example C37_example :
  ('(obs, s) ← x_run pf_ex (mkReader (take 18 file_ex ++ [51;32;48;58;55;10;10]) [] EOF false) 3; Ok (map fst obs, x_Err s, x_line s))
  = Ok ([true; false; false], Some ErrLabelOutOfBounds, 3).
Proof. vm_compute. reflexivity. Qed.

Theorem C38_never_not_enough_fields : forall pf r n obs s,
  x_run pf r n = Ok (obs, s) -> x_Err s <> Some ErrNotEnoughFields.
Proof. exact run_no_fields. Qed.
Print Assumptions C38_never_not_enough_fields.
(** a blank line *)
Example C38_example :
  ('(obs, s) ← x_run pf_ex (mkReader (take 6 file_ex ++ [10]) [] EOF false) 2; Ok (map fst obs, x_Err s, x_line s))
  = Ok ([false; false], Some ErrMissingFeatures, 2).
Proof. vm_compute. reflexivity. Qed.

(** The number of examples is not compared with the header's: a file that promises two points and
    has one is read without error. *)
Theorem C39_total_points_refuted : exists pf r n obs s s1,
  rd_final r = EOF /\ x_run pf r n = Ok (obs, s) /\ x_Scan pf s = Ok (false, s1) /\ x_Err s1 = None /\
  Z.of_nat (length (List.filter fst obs)) <> x_totalPoints s1.
Proof. exact total_points_refuted. Qed.
Print Assumptions C39_total_points_refuted.

(** What holds: when the whole file was read without error, there was one example per line after the
    header (missing: that this is TotalPoints). *)
Theorem C39_all_lines_delivered_partial : forall pf r n obs s s1,
  x_run pf r n = Ok (obs, s) -> x_Scan pf s = Ok (false, s1) -> x_Err s1 = None ->
  length (raw_lines (rd_data r)) = S (length (List.filter fst obs)).
Proof. exact run_count. Qed.
Print Assumptions C39_all_lines_delivered_partial.
Example C39_example :
  ('(obs, s) ← x_run pf_ex (reader_ex EOF) 2; '(ok, s1) ← x_Scan pf_ex s; Ok (map fst obs, ok, x_Err s1))
  = Ok ([true; true], false, None) /\ length (raw_lines file_ex) = 3%nat.
Proof. split; vm_compute; reflexivity. Qed.
