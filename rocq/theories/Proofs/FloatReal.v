(** Bridge between [spec_float] arithmetic and the reals, through Flocq.
    Only this file (and lemmas using it) depends on the standard library's axioms on R. *)
From Verif.Model Require Import Float64.
From Coq Require Import Reals Psatz.
From Flocq Require Import Core BinarySingleNaN Relative.
Import BinarySingleNaN.

Local Notation prec := 53%Z.
Local Notation emax := 1024%Z.
Local Notation bf := (binary_float prec emax).
Local Notation fex := (SpecFloat.fexp prec emax).

Global Instance Hprec53 : Prec_gt_0 prec. Proof. reflexivity. Qed.
Global Instance Hmax1024 : Prec_lt_emax prec emax. Proof. reflexivity. Qed.

Lemma round_nearest_even_equiv s m l :
  round_nearest_even m l = choice_mode mode_NE s m l.
Proof.
  destruct l as [|c]; [reflexivity|]. destruct c; [|reflexivity..].
  simpl. unfold Round.cond_incr. now destruct (Z.even m).
Qed.

Lemma round_aux_equiv sx mx ex lx :
  SpecFloat.binary_round_aux prec emax sx mx ex lx = binary_round_aux prec emax mode_NE sx mx ex lx.
Proof.
  unfold SpecFloat.binary_round_aux, binary_round_aux.
  destruct (shr_fexp _ _ _) as [mrs e]; simpl.
  now rewrite (round_nearest_even_equiv sx).
Qed.

Lemma normalize_equiv m e s :
  SpecFloat.binary_normalize prec emax m e s = B2SF (binary_normalize prec emax _ _ mode_NE m e s).
Proof.
  destruct m as [|p|p]; simpl; [reflexivity| |]; rewrite B2SF_SF2B;
    unfold SpecFloat.binary_round, binary_round, shl_align_fexp;
    destruct (shl_align _ _ _); apply round_aux_equiv.
Qed.

Lemma fdiv_B (x y : bf) : fdiv (B2SF x) (B2SF y) = B2SF (Bdiv mode_NE x y).
Proof.
  destruct x as [sx|sx| |sx mx ex Bx], y as [sy|sy| |sy my ey By]; try reflexivity.
  simpl. rewrite B2SF_SF2B. unfold fdiv, SFdiv. destruct (SFdiv_core_binary _ _ _ _ _ _) as [[a b] c].
  apply round_aux_equiv.
Qed.

Lemma fmul_B (x y : bf) : fmul (B2SF x) (B2SF y) = B2SF (Bmult mode_NE x y).
Proof.
  destruct x as [sx|sx| |sx mx ex Bx], y as [sy|sy| |sy my ey By]; try reflexivity.
  simpl. rewrite B2SF_SF2B. apply round_aux_equiv.
Qed.

Definition BofZ (z : Z) : bf := binary_normalize prec emax _ _ mode_NE z 0 false.

Lemma f_of_Z_B z : f_of_Z z = B2SF (BofZ z).
Proof. apply normalize_equiv. Qed.

Lemma format_Z z : (Z.abs z <= 2^53)%Z -> generic_format radix2 fex (IZR z).
Proof.
  intros Hz. change fex with (FLT_exp (3 - emax - prec) prec).
  apply generic_format_FLT.
  destruct (Z.eq_dec (Z.abs z) (2^53)) as [E|E].
  - exists (Float radix2 (Z.sgn z) 53); simpl.
    + unfold F2R; simpl. rewrite <-mult_IZR. f_equal.
      change (Z.pow_pos 2 53) with (2^53)%Z. rewrite <-E.
      symmetry. rewrite Z.mul_comm. apply Z.abs_sgn.
    + destruct z; simpl; lia.
    + lia.
  - exists (Float radix2 z 0); simpl.
    + unfold F2R; simpl. ring.
    + change (Z.pow_pos 2 53) with (2^53)%Z. lia.
    + lia.
Qed.

Lemma round_Z z : (Z.abs z <= 2^53)%Z -> round radix2 fex (round_mode mode_NE) (IZR z) = IZR z.
Proof. intros. apply round_generic; [apply valid_rnd_round_mode|]. now apply format_Z. Qed.

Lemma bpow_1024_big z : (Z.abs z <= 2^53)%Z -> (Rabs (IZR z) < bpow radix2 1024)%R.
Proof.
  intros Hz. rewrite <-abs_IZR. apply Rle_lt_trans with (IZR (2^53)); [now apply IZR_le|].
  change (IZR (2^53)) with (bpow radix2 53). apply bpow_lt. lia.
Qed.

Lemma normalize_exact z s : (Z.abs z <= 2^53)%Z ->
  let x := binary_normalize prec emax _ _ mode_NE z 0 s in
  B2R x = IZR z /\ is_finite x = true.
Proof.
  intros Hz x. pose proof (binary_normalize_correct prec emax _ _ mode_NE z 0 s) as H.
  cbv zeta in H.
  replace (F2R {| Fnum := z; Fexp := 0 |}) with (IZR z) in H
    by (unfold F2R; simpl; ring).
  rewrite round_Z in H by assumption.
  rewrite Rlt_bool_true in H by now apply bpow_1024_big.
  destruct H as (H1 & H2 & _). now split.
Qed.

Lemma shiftl_neg_div m e : (e <= 0)%Z -> Z.shiftl m e = (m / 2 ^ (- e))%Z.
Proof.
  intros He. replace e with (- (- e))%Z at 1 by lia.
  rewrite Z.shiftl_opp_r. apply Z.shiftr_div_pow2. lia.
Qed.

Lemma F2R_nonneg_exp m e : (0 <= e)%Z -> F2R (Float radix2 m e) = IZR (m * 2 ^ e).
Proof.
  intros He. unfold F2R; simpl. rewrite mult_IZR. f_equal. symmetry. now apply (IZR_Zpower radix2).
Qed.

Lemma F2R_neg_exp m e : (e < 0)%Z -> F2R (Float radix2 m e) = (IZR m / IZR (2 ^ (- e)))%R.
Proof.
  intros He. unfold F2R; simpl. unfold Rdiv. f_equal.
  replace e with (- (- e))%Z at 1 by lia. rewrite bpow_opp. f_equal.
  symmetry. apply (IZR_Zpower radix2). lia.
Qed.

Lemma IZR_pow2_pos e : (0 <= e)%Z -> (0 < IZR (2 ^ e))%R.
Proof. intros. apply IZR_lt. apply Z.pow_pos_nonneg; lia. Qed.

(** An integer-valued float is converted exactly. *)
Lemma int_of_f_exact (x : bf) n :
  is_finite x = true -> B2R x = IZR n -> in_int64 n -> int_of_f (B2SF x) = n.
Proof.
  intros Hf HR Hn. unfold in_int64, minInt64, maxInt64 in *.
  destruct x as [s|s| |s m e Hb]; try discriminate; simpl in *.
  - now apply eq_IZR in HR.
  - assert (Hz : (if s then - Z.shiftl (Zpos m) e else Z.shiftl (Zpos m) e)%Z = n).
    { destruct (Z_lt_le_dec e 0) as [He|He].
      - rewrite F2R_neg_exp in HR by assumption.
        pose proof (IZR_pow2_pos (-e) ltac:(lia)) as Hp.
        assert (HR2 : (IZR (cond_Zopp s (Zpos m)) = IZR (n * 2 ^ (- e)))%R).
        { rewrite mult_IZR, <-HR. field. lra. }
        apply eq_IZR in HR2. rewrite shiftl_neg_div by lia.
        pose proof (Z.pow_pos_nonneg 2 (-e) ltac:(lia) ltac:(lia)) as Hpz.
        set (q := (2 ^ (- e))%Z) in *.
        destruct s; simpl in HR2.
        + replace (Zpos m) with ((- n) * q)%Z by lia. rewrite Z.div_mul by lia. lia.
        + rewrite HR2, Z.div_mul by lia. reflexivity.
      - rewrite F2R_nonneg_exp in HR by assumption. apply eq_IZR in HR.
        rewrite Z.shiftl_mul_pow2 by assumption. destruct s; simpl in HR; lia. }
    rewrite Hz.
    destruct (Z.leb_spec minInt64 n); destruct (Z.leb_spec n maxInt64); simpl; unfold minInt64, maxInt64 in *; lia.
Qed.

Lemma int_of_normalize n s : (Z.abs n <= 2^53)%Z ->
  int_of_f (SpecFloat.binary_normalize prec emax n 0 s) = n.
Proof.
  intros Hn. rewrite normalize_equiv. destruct (normalize_exact n s Hn) as [H1 H2].
  apply int_of_f_exact; [assumption..|]. unfold in_int64, minInt64, maxInt64. lia.
Qed.

Lemma Zfloor_div m q : (0 < q)%Z -> Zfloor (IZR m / IZR q) = (m / q)%Z.
Proof. intros. apply Zfloor_div. lia. Qed.

(** int(math.Floor(x)) is the floor of the real value. *)
Lemma int_floor_real (x : bf) :
  is_finite x = true -> (Rabs (B2R x) <= IZR (2^53))%R ->
  int_floor (B2SF x) = Zfloor (B2R x).
Proof.
  intros Hf Hr. unfold int_floor.
  destruct x as [s|s| |s m e Hb]; try discriminate.
  - simpl. symmetry. apply (Zfloor_IZR 0).
  - assert (Hfl : (Z.abs (Zfloor (B2R (B754_finite s m e Hb))) <= 2^53)%Z).
    { apply Rabs_le_inv in Hr as [Hr1 Hr2]. rewrite <-opp_IZR in Hr1.
      apply Zfloor_le in Hr1. apply Zfloor_le in Hr2. rewrite !Zfloor_IZR in *. lia. }
    simpl in *. unfold ffloor. destruct (Z.leb_spec 0 e) as [He|He].
    + rewrite F2R_nonneg_exp in * by assumption. rewrite Zfloor_IZR in *.
      apply (int_of_f_exact (B754_finite s m e Hb)); [reflexivity| |unfold in_int64, minInt64, maxInt64; lia].
      simpl. now rewrite F2R_nonneg_exp.
    + rewrite F2R_neg_exp in * by assumption. rewrite Zfloor_div in * by (apply Z.pow_pos_nonneg; lia).
      replace (f_floorZ s m e) with (cond_Zopp s (Z.pos m) / 2 ^ (- e))%Z.
      * now apply int_of_normalize.
      * unfold f_floorZ, smant. rewrite shiftl_neg_div by lia. now destruct s.
Qed.

Lemma int_ceil_real (x : bf) :
  is_finite x = true -> (Rabs (B2R x) <= IZR (2^53))%R ->
  int_ceil (B2SF x) = Zceil (B2R x).
Proof.
  intros Hf Hr. unfold int_ceil.
  destruct x as [s|s| |s m e Hb]; try discriminate.
  - simpl. symmetry. apply (Zceil_IZR 0).
  - assert (Hfl : (Z.abs (Zceil (B2R (B754_finite s m e Hb))) <= 2^53)%Z).
    { apply Rabs_le_inv in Hr as [Hr1 Hr2]. rewrite <-opp_IZR in Hr1.
      apply Zceil_le in Hr1. apply Zceil_le in Hr2. rewrite !Zceil_IZR in *. lia. }
    simpl in *. unfold fceil. destruct (Z.leb_spec 0 e) as [He|He].
    + rewrite F2R_nonneg_exp in * by assumption. rewrite Zceil_IZR in *.
      apply (int_of_f_exact (B754_finite s m e Hb)); [reflexivity| |unfold in_int64, minInt64, maxInt64; lia].
      simpl. now rewrite F2R_nonneg_exp.
    + rewrite F2R_neg_exp in * by assumption. unfold Zceil in *.
      replace (- (IZR (cond_Zopp s (Z.pos m)) / IZR (2 ^ (- e))))%R
        with (IZR (- cond_Zopp s (Z.pos m)) / IZR (2 ^ (- e)))%R in *
        by (rewrite opp_IZR; unfold Rdiv; ring).
      rewrite Zfloor_div in * by (apply Z.pow_pos_nonneg; lia).
      replace (f_ceilZ s m e) with (- (- cond_Zopp s (Z.pos m) / 2 ^ (- e)))%Z.
      * now apply int_of_normalize.
      * unfold f_ceilZ, smant. rewrite shiftl_neg_div by lia. now destruct s.
Qed.

Lemma BofZ_exact z : (Z.abs z <= 2^53)%Z -> B2R (BofZ z) = IZR z /\ is_finite (BofZ z) = true.
Proof. intros. now apply normalize_exact. Qed.

(** The quotient of two small integers is rounded without crossing an integer. *)
Lemma div_small a b (x y : bf) :
  (0 <= a < 2^53)%Z -> (0 < b <= 2^53)%Z ->
  B2R x = IZR a -> is_finite x = true -> B2R y = IZR b -> is_finite y = true ->
  let q := Bdiv mode_NE x y in
  is_finite q = true /\ (Rabs (B2R q) <= IZR (2^53))%R /\
  Zfloor (B2R q) = (a / b)%Z /\ Zceil (B2R q) = ((a + b - 1) / b)%Z.
Proof.
  intros Ha Hb Hx Hfx Hy Hfy q.
  assert (HbR : (0 < IZR b)%R) by (apply IZR_lt; lia).
  assert (Hb1 : (1 <= IZR b)%R) by (apply IZR_le; lia).
  assert (HaR : (0 <= IZR a < IZR (2^53))%R) by (split; [apply IZR_le|apply IZR_lt]; lia).
  pose proof (Bdiv_correct prec emax _ _ mode_NE x y) as HD.
  rewrite Hx, Hy in HD. specialize (HD ltac:(lra)).
  set (v := (IZR a / IZR b)%R) in *.
  set (r := round radix2 fex (round_mode mode_NE) v) in *.
  (* monotonicity against integers *)
  assert (Hmono_le : forall n, (Z.abs n <= 2^53)%Z -> (IZR n <= v)%R -> (IZR n <= r)%R).
  { intros n Hn Hnv. unfold r. rewrite <-(round_Z n Hn). apply round_le; [apply fexp_correct; reflexivity|apply valid_rnd_round_mode|assumption]. }
  assert (Hmono_ge : forall n, (Z.abs n <= 2^53)%Z -> (v <= IZR n)%R -> (r <= IZR n)%R).
  { intros n Hn Hnv. unfold r. rewrite <-(round_Z n Hn). apply round_le; [apply fexp_correct; reflexivity|apply valid_rnd_round_mode|assumption]. }
  assert (Hv0 : (0 <= v)%R) by (unfold v, Rdiv; apply Rmult_le_pos; [lra|left; now apply Rinv_0_lt_compat]).
  assert (Hva : (v <= IZR a)%R).
  { unfold v. apply Rmult_le_reg_r with (IZR b); [lra|]. unfold Rdiv. rewrite Rmult_assoc, Rinv_l by lra. nra. }
  assert (Hr0 : (0 <= r)%R) by (apply (Hmono_le 0%Z); [lia|exact Hv0]).
  assert (Hra : (r <= IZR a)%R) by (apply Hmono_ge; [lia|exact Hva]).
  assert (Hrabs : Rabs r = r) by now apply Rabs_pos_eq.
  rewrite Rlt_bool_true in HD.
  2:{ rewrite Hrabs. apply Rle_lt_trans with (IZR a); [assumption|].
      rewrite <-(Rabs_pos_eq (IZR a)) by lra. apply bpow_1024_big. lia. }
  destruct HD as (HDr & HDf & _). fold q in HDr, HDf. rewrite Hfx in HDf.
  split; [exact HDf|]. rewrite HDr. split; [rewrite Hrabs; lra|].
  (* relative error *)
  assert (Herr : (Rabs (r - v) * IZR b < 1)%R).
  { destruct (Z.eq_dec a 0) as [->|Ha0].
    - assert (r = 0)%R by lra. unfold v, Rdiv. rewrite H, Rmult_0_l, Rminus_0_r, Rabs_R0. lra.
    - assert (HbR2 : (IZR b <= IZR (2^53))%R) by (apply IZR_le; lia).
      assert (Hvb : (v * IZR b = IZR a)%R) by (unfold v; field; lra).
      assert (Ha1 : (1 <= IZR a)%R) by (apply IZR_le; lia).
      assert (Hvlow : (bpow radix2 (3 - emax - prec + prec - 1) <= Rabs v)%R).
      { rewrite Rabs_pos_eq by assumption.
        apply Rle_trans with (bpow radix2 (-53)); [apply bpow_le; lia|].
        change (bpow radix2 (-53)) with (/ IZR (2^53))%R.
        apply Rmult_le_reg_r with (IZR b); [lra|]. rewrite Hvb.
        apply Rle_trans with 1%R; [|lra].
        apply Rmult_le_reg_l with (IZR (2^53)); [apply IZR_lt; lia|].
        rewrite <-Rmult_assoc, Rinv_r, Rmult_1_l, Rmult_1_r by (apply not_0_IZR; lia). assumption. }
      pose proof (relative_error_N_FLT radix2 (3 - emax - prec) prec Hprec53 (fun x => negb (Z.even x)) v Hvlow) as HE.
      change (FLT_exp (3 - emax - prec) prec) with fex in HE.
      change (Znearest (fun x => negb (Z.even x))) with (round_mode mode_NE) in HE. fold r in HE.
      rewrite (Rabs_pos_eq v) in HE by assumption.
      apply Rle_lt_trans with (/ 2 * bpow radix2 (- prec + 1) * v * IZR b)%R.
      + apply Rmult_le_compat_r; [lra|exact HE].
      + rewrite Rmult_assoc, Hvb.
        change (bpow radix2 (-prec + 1)) with (/ IZR (2^52))%R.
        replace (/ 2 * / IZR (2^52))%R with (/ IZR (2^53))%R
          by (change (2^53)%Z with (2 * 2^52)%Z; rewrite mult_IZR; field; apply not_0_IZR; lia).
        apply Rmult_lt_reg_l with (IZR (2^53)); [apply IZR_lt; lia|].
        rewrite <-Rmult_assoc, Rinv_r, Rmult_1_l, Rmult_1_r by (apply not_0_IZR; lia). lra. }
  apply Rabs_def2 in Herr || idtac.
  assert (Herr2 : (r * IZR b < IZR a + 1 /\ IZR a - 1 < r * IZR b)%R).
  { assert (Hvb : (v * IZR b = IZR a)%R) by (unfold v; field; lra).
    assert (HRb : (Rabs ((r - v) * IZR b) < 1)%R).
    { rewrite Rabs_mult, (Rabs_pos_eq (IZR b)) by lra. assumption. }
    apply Rabs_def2 in HRb. rewrite Rmult_minus_distr_r, Hvb in HRb. lra. }
  set (k := (a / b)%Z).
  assert (Hk : (b * k <= a < b * k + b)%Z).
  { unfold k. pose proof (Z.mul_div_le a b ltac:(lia)). pose proof (Z.mul_succ_div_gt a b ltac:(lia)). lia. }
  assert (Hk0 : (0 <= k <= a)%Z) by nia.
  assert (Hkr : (IZR k <= r)%R).
  { apply Hmono_le; [lia|]. apply Rmult_le_reg_r with (IZR b); [lra|].
    unfold v. replace (IZR a / IZR b * IZR b)%R with (IZR a) by (field; lra).
    rewrite <-mult_IZR. apply IZR_le. lia. }
  assert (Hrk : (r < IZR (k + 1))%R).
  { apply Rmult_lt_reg_r with (IZR b); [lra|]. apply Rlt_le_trans with (IZR a + 1)%R; [lra|].
    rewrite <-plus_IZR, <-mult_IZR. apply IZR_le. lia. }
  split.
  - apply Zfloor_imp. now split.
  - set (c := ((a + b - 1) / b)%Z).
    assert (Hc : (b * c < a + b /\ a <= b * c)%Z).
    { unfold c. pose proof (Z.mul_div_le (a + b - 1) b ltac:(lia)). pose proof (Z.mul_succ_div_gt (a + b - 1) b ltac:(lia)). lia. }
    apply Zceil_imp. split.
    + apply Rmult_lt_reg_r with (IZR b); [lra|]. apply Rle_lt_trans with (IZR a - 1)%R; [|lra].
      rewrite <-minus_IZR, <-mult_IZR. apply IZR_le. lia.
    + apply Hmono_ge; [nia|]. apply Rmult_le_reg_r with (IZR b); [lra|].
      unfold v. replace (IZR a / IZR b * IZR b)%R with (IZR a) by (field; lra).
      rewrite <-mult_IZR. apply IZR_le. lia.
Qed.

(** Z-level consequences. *)
Lemma int_ceil_div a b : (0 <= a < 2^53)%Z -> (0 < b <= 2^53)%Z ->
  int_ceil (fdiv (f_of_Z a) (f_of_Z b)) = ((a + b - 1) / b)%Z.
Proof.
  intros Ha Hb. rewrite !f_of_Z_B, fdiv_B.
  destruct (BofZ_exact a) as [H1 H2]; [lia|]. destruct (BofZ_exact b) as [H3 H4]; [lia|].
  destruct (div_small a b _ _ Ha Hb H1 H2 H3 H4) as (Hf & Hr & _ & Hc).
  now rewrite int_ceil_real.
Qed.

Lemma int_floor_div a b : (0 <= a < 2^53)%Z -> (0 < b <= 2^53)%Z ->
  int_floor (fdiv (f_of_Z a) (f_of_Z b)) = (a / b)%Z.
Proof.
  intros Ha Hb. rewrite !f_of_Z_B, fdiv_B.
  destruct (BofZ_exact a) as [H1 H2]; [lia|]. destruct (BofZ_exact b) as [H3 H4]; [lia|].
  destruct (div_small a b _ _ Ha Hb H1 H2 H3 H4) as (Hf & Hr & Hc & _).
  now rewrite int_floor_real.
Qed.

Lemma int_ceil_mul8_div a b : (0 <= a)%Z -> (8 * a < 2^53)%Z -> (0 < b <= 2^53)%Z ->
  int_ceil (fdiv (fmul (f_of_Z a) (f_of_Z 8)) (f_of_Z b)) = ((8 * a + b - 1) / b)%Z.
Proof.
  intros Ha0 Ha Hb. rewrite !f_of_Z_B, fmul_B, fdiv_B.
  destruct (BofZ_exact a) as [H1 H2]; [lia|]. destruct (BofZ_exact b) as [H3 H4]; [lia|].
  destruct (BofZ_exact 8) as [H5 H6]; [lia|].
  pose proof (Bmult_correct prec emax _ _ mode_NE (BofZ a) (BofZ 8)) as HM.
  rewrite H1, H5, <-mult_IZR, round_Z in HM by lia.
  rewrite Rlt_bool_true in HM by (apply bpow_1024_big; lia).
  destruct HM as (HM1 & HM2 & _). rewrite H2, H6 in HM2. rewrite Z.mul_comm in HM1.
  destruct (div_small (8 * a) b _ _ ltac:(lia) Hb HM1 HM2 H3 H4) as (Hf & Hr & _ & Hc).
  now rewrite int_ceil_real.
Qed.
