(** Model of densified_wta_hash/densified_wta_hash.go. *)
From Verif.Model Require Export Wta Densify.

(** type DensifiedWtaHash — densified_wta_hash/densified_wta_hash.go:25-34 *)
Record Dwta := mkDwta {
  dw_d : DHash; dw_indices : list Z; dw_pos : list Z; dw_permute : Z
}.

(** Inner loop of New — densified_wta_hash.go:56-59 *)
Definition dwta_fill (n p : Z) (st : list Z * list Z) (jv : Z * Z) : res (list Z * list Z) :=
  let '(indices, pos) := st in
  let '(j, value) := jv in
  indices ← sset indices (p * n + value) (Z.quot (p * n + j) wta_binSize);
  pos ← sset pos (p * n + value) (Z.rem (p * n + j) wta_binSize);
  Ok (indices, pos).

(** Outer loop of New — densified_wta_hash.go:53-60 *)
Definition dwta_step (n : Z) (st : list Z * (list Z * list Z) * rng) (p : Z)
    : res (list Z * (list Z * list Z) * rng) :=
  let '(nArray, ip, g) := st in
  let '(nArray, g) := shuffle nArray g in
  ip ← foldM (dwta_fill n p) ip (indexed nArray);
  Ok (nArray, ip, g).

(** New — densified_wta_hash.go:36-73.  [log2] stands for math.Log2. *)
Definition dwta_New (log2 : float64 -> float64) (numHashes n : Z) (g : rng) : res (Dwta * rng) :=
  let permute := wta_permute numHashes n in
  nArray ← make_slice 0 n;
  indices ← make_slice 0 (wrap64 (n * permute));
  pos ← make_slice 0 (wrap64 (n * permute));
  let nArray := seqZ 0 (Z.of_nat (length nArray)) in
  '(_, (indices, pos), g) ← foldM (dwta_step n) (nArray, (indices, pos), g) (seqZ 0 permute);
  let '(d, g) := dh_New log2 numHashes n g in
  Ok ({| dw_d := d; dw_indices := indices; dw_pos := pos; dw_permute := permute |}, g).

(** type item — densified_wta_hash.go:76-80 *)
Record item := mkItem { it_hash : Z; it_value : float64; it_init : bool }.

(** Scan body of GetHash — densified_wta_hash.go:88-95; [i] is the position in data. *)
Definition dwta_scan_item (dw : Dwta) (p : Z) (items : list item) (iv : Z * Pair) : res (list item) :=
  let '(i, pr) := iv in
  let innerIndex := p * dh_rangePow (dw_d dw) + i in
  binId ← sget (dw_indices dw) innerIndex;
  if binId <? dh_numHashes (dw_d dw) then
    it ← sget items binId;
    if negb (it_init it) || fltb (it_value it) (iv_value pr) then
      h ← sget (dw_pos dw) innerIndex;
      sset items binId {| it_hash := h; it_value := iv_value pr; it_init := true |}
    else Ok items
  else Ok items.

(** GetHash — densified_wta_hash.go:75-119 *)
Definition dwta_GetHash (dw : Dwta) (data : list Pair) : res (list Z) :=
  items ← make_slice {| it_hash := 0; it_value := fzero; it_init := false |} (dh_numHashes (dw_d dw));
  items ← foldM (fun items p => foldM (dwta_scan_item dw p) items (indexed data))
            items (seqZ 0 (dw_permute dw));
  out ← densify (dw_d dw) (fun it => negb (it_init it))
          (fun it => {| it_hash := 0; it_value := it_value it; it_init := it_init it |}) items;
  Ok (map it_hash out).

(** Scan body of GetHashEasy — densified_wta_hash.go:134-139 *)
Definition dwta_scan_easy (dw : Dwta) (p : Z) (st : list Z * list float64) (iv : Z * float64)
    : res (list Z * list float64) :=
  let '(hashes, values) := st in
  let '(i, dataValue) := iv in
  let innerIndex := p * dh_rangePow (dw_d dw) + i in
  binId ← sget (dw_indices dw) innerIndex;
  if binId <? dh_numHashes (dw_d dw) then
    v ← sget values binId;
    if fltb v dataValue then
      values ← sset values binId dataValue;
      h ← sget (dw_pos dw) innerIndex;
      hashes ← sset hashes binId h;
      Ok (hashes, values)
    else Ok (hashes, values)
  else Ok (hashes, values).

(** GetHashEasy — densified_wta_hash.go:121-163 (the topK argument is unused) *)
Definition dwta_GetHashEasy (dw : Dwta) (data : list float64) (topK : Z) : res (list Z) :=
  hashes ← make_slice minInt64 (dh_numHashes (dw_d dw));
  values ← make_slice fMinInt64 (dh_numHashes (dw_d dw));
  '(hashes, _) ← foldM (fun st p => foldM (dwta_scan_easy dw p) st (indexed data))
                   (hashes, values) (seqZ 0 (dw_permute dw));
  densify (dw_d dw) (fun h => h =? minInt64) (fun _ => 0) hashes.
