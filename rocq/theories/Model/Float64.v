(** float64 as IEEE-754 binary64, using the standard library's executable
    specification [SpecFloat] (precision 53, emax 1024, a single NaN).
    Models the Go float64 type on amd64 (no fused multiply-add), not goslide code. *)
From Coq Require Export Floats.SpecFloat.
From Verif.Model Require Export Base.

Definition float64 := spec_float.

Definition fadd : float64 -> float64 -> float64 := SFadd 53 1024.
Definition fsub : float64 -> float64 -> float64 := SFsub 53 1024.
Definition fmul : float64 -> float64 -> float64 := SFmul 53 1024.
Definition fdiv : float64 -> float64 -> float64 := SFdiv 53 1024.
Definition fsqrt : float64 -> float64 := SFsqrt 53 1024.
Definition fneg : float64 -> float64 := SFopp.

(** Go [x < y], [x <= y], [x == y]: false when an operand is NaN. *)
Definition fltb : float64 -> float64 -> bool := SFltb.
Definition fleb : float64 -> float64 -> bool := SFleb.
Definition feqb : float64 -> float64 -> bool := SFeqb.
Definition fgtb (x y : float64) : bool := SFltb y x.
Definition fgeb (x y : float64) : bool := SFleb y x.

Definition fzero : float64 := S754_zero false.
Definition fnan : float64 := S754_nan.

(** float64(z) for an integer z: round to nearest even. *)
Definition f_of_Z (z : Z) : float64 := binary_normalize 53 1024 z 0 false.

Definition fone : float64 := f_of_Z 1.

(** The float64 constant math.MinInt64 = -2^63, exactly representable. *)
Definition fMinInt64 : float64 := f_of_Z minInt64.

(** Signed mantissa. *)
Definition smant (s : bool) (m : positive) : Z := if s then Zneg m else Zpos m.

(** math.Floor and math.Ceil. *)
Definition f_floorZ (s : bool) (m : positive) (e : Z) : Z := Z.shiftl (smant s m) e.
Definition f_ceilZ (s : bool) (m : positive) (e : Z) : Z := - Z.shiftl (- smant s m) e.

Definition ffloor (x : float64) : float64 :=
  match x with
  | S754_finite s m e => if 0 <=? e then x
      else binary_normalize 53 1024 (f_floorZ s m e) 0 s
  | _ => x
  end.
Definition fceil (x : float64) : float64 :=
  match x with
  | S754_finite s m e => if 0 <=? e then x
      else binary_normalize 53 1024 (f_ceilZ s m e) 0 s
  | _ => x
  end.

(** int(x): truncation toward zero; on amd64 NaN and out-of-range values give MinInt64. *)
Definition int_of_f (x : float64) : Z :=
  match x with
  | S754_zero _ => 0
  | S754_finite s m e =>
      let a := Z.shiftl (Zpos m) e in
      let z := if s then - a else a in
      if (minInt64 <=? z) && (z <=? maxInt64) then z else minInt64
  | _ => minInt64
  end.

(** int(math.Ceil(x)), int(math.Floor(x)) *)
Definition int_ceil (x : float64) : Z := int_of_f (fceil x).
Definition int_floor (x : float64) : Z := int_of_f (ffloor x).

Definition is_nan (x : float64) : bool := match x with S754_nan => true | _ => false end.
