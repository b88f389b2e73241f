(** An accurate exp tells its arguments apart, and there is one. *)
From Verif.Spec Require Import ScoreSpec.
From Verif.Proofs Require Import FloatReal FloatSub FloatRange RoundProofs ScaleFloat BoundFloat.
From Coq Require Import Reals Psatz.
From Flocq Require Import Core BinarySingleNaN.
Import BinarySingleNaN.
Local Notation prec := 53%Z.
Local Notation emax := 1024%Z.
Local Notation bf := (binary_float prec emax).
Local Notation fex := (SpecFloat.fexp prec emax).
Local Notation rnd := (round radix2 fex (round_mode mode_NE)).
Local Notation rexp := Rtrigo_def.exp.
Local Open Scope R_scope.

Lemma pow2_plus a b : / 2 ^ (a + b) = / 2 ^ a * / 2 ^ b.
Proof. rewrite pow_add, Rinv_mult. reflexivity. Qed.
Lemma pow2_inv_pos a : 0 < / 2 ^ a. Proof. apply Rinv_0_lt_compat, pow_lt. lra. Qed.
Lemma pow2_inv_le a b : (a <= b)%nat -> / 2 ^ b <= / 2 ^ a.
Proof. intros H. apply Rinv_le_contravar; [apply pow_lt; lra|]. apply Rle_pow; [lra|done]. Qed.
Lemma exp_pow n : rexp (INR n) = (rexp 1) ^ n.
Proof. induction n as [|n IH]; [apply exp_0|]. rewrite S_INR, exp_plus, IH. cbn. ring. Qed.
Lemma exp_600 : / 2 ^ 1000 <= rexp (-600).
Proof.
  replace (-600) with (- INR (3 * 200)) by (rewrite INR_IZR_INZ; f_equal; reflexivity).
  rewrite exp_Ropp. apply Rinv_le_contravar; [apply exp_pos|]. rewrite exp_pow.
  apply Rle_trans with (3 ^ (3 * 200)); [apply pow_incr; pose proof (exp_pos 1); pose proof exp_le_3; lra|].
  rewrite pow_mult. replace 1000%nat with (5 * 200)%nat by reflexivity. rewrite (pow_mult 2). apply pow_incr. simpl. lra.
Qed.
Lemma accurate_separates f : exp_accurate f -> exp_separates f (/ 2 ^ 40).
Proof.
  intros HA x y Fx Fy Hy Hxy. pose proof (pow2_inv_pos 40) as P40.
  destruct (HA x Fx ltac:(lra)) as [Gx Ex]. destruct (HA y Fy ltac:(lra)) as [Gy Ey].
  rewrite fltb_val by done. apply Rlt_bool_true. apply Rabs_le_inv in Ex, Ey.
  assert (AY : / 2 ^ 1000 <= rexp (val y)).
  { eapply Rle_trans; [apply exp_600|]. destruct (Rle_lt_or_eq_dec (-600) (val y)) as [L|<-]; [lra|left; by apply exp_increasing|lra]. }
  assert (BX : rexp (val x) <= rexp (val y) * rexp (- / 2 ^ 40)).
  { rewrite <- exp_plus. destruct (Rle_lt_or_eq_dec (val x) (val y + - / 2 ^ 40)) as [L|<-]; [lra|left; by apply exp_increasing|lra]. }
  assert (Q : / 2 ^ 40 <= / 2) by (apply Rle_trans with (/ 2 ^ 1); [apply pow2_inv_le; lia|simpl; lra]).
  assert (DE : rexp (- / 2 ^ 40) <= 1 - / 2 ^ 41).
  { rewrite exp_Ropp. pose proof (exp_ineq1 (/ 2 ^ 40) ltac:(lra)) as I.
    replace 41%nat with (1 + 40)%nat by reflexivity. rewrite pow2_plus. replace (/ 2 ^ 1) with (/ 2) by (simpl; lra).
    set (t := / 2 ^ 40) in *. apply Rle_trans with (/ (1 + t)); [apply Rinv_le_contravar; lra|].
    apply (Rmult_le_reg_r (1 + t)); [lra|]. rewrite Rinv_l by lra. nra. }
  pose proof (exp_pos (val y)) as PY. pose proof (exp_pos (val x)) as PX.
  set (A := rexp (val y)) in *. set (B := rexp (val x)) in *.
  assert (BA : B <= A * (1 - / 2 ^ 41)) by nra.
  assert (E50 : / 2 ^ 50 = / 2 ^ 41 * / 512) by (replace 50%nat with (41 + 9)%nat by reflexivity; rewrite pow2_plus; f_equal; simpl; lra).
  assert (TAU : / 2 ^ 1074 <= A * (/ 2 ^ 41 * / 512)).
  { rewrite <- E50. apply Rle_trans with (/ 2 ^ 1000 * / 2 ^ 50); [rewrite <- pow2_plus; apply pow2_inv_le; lia|].
    apply Rmult_le_compat_r; [|done]. pose proof (pow2_inv_pos 50). lra. }
  rewrite E50 in *. pose proof (pow2_inv_pos 41) as P41.
  set (g := / 2 ^ 41) in *. set (t := / 2 ^ 1074) in *. set (vx := val (f x)) in *. set (vy := val (f y)) in *.
  clearbody g t vx vy A B. assert (BLE : B <= A) by nra. assert (0 < A * g) by nra. nra.
Qed.

(** The correctly rounded exponential. *)
Definition rounded_exp (x : float64) : float64 :=
  let r := rexp (val x) in
  B2SF (binary_normalize prec emax eq_refl eq_refl mode_NE (ZnearestE (scaled_mantissa radix2 fex r)) (cexp radix2 fex r) false).
Lemma rounded_accurate : exp_accurate rounded_exp.
Proof.
  intros x Fx Hx. unfold rounded_exp. set (r := rexp (val x)).
  assert (R1 : 0 < r <= 1). { split; [apply exp_pos|]. rewrite <- exp_0. unfold r. destruct Hx as [L| ->]; [left; by apply exp_increasing|lra]. }
  pose proof (binary_normalize_correct prec emax eq_refl eq_refl mode_NE (ZnearestE (scaled_mantissa radix2 fex r)) (cexp radix2 fex r) false) as C. cbn zeta in C.
  change (F2R _) with (rnd r) in C. rewrite (round_generic _ _ _ (rnd r)) in C by (apply generic_format_round; [apply FLT_exp_valid; done|apply valid_rnd_N]).
  rewrite Rlt_bool_true in C by (apply lim_big; rewrite Rabs_right by lra; pose proof lim_ge1; lra).
  destruct C as (V & F & _). split; [by apply B_finite|]. rewrite val_B, V. destruct (rnd_err r) as (d & e & Hd & He & ->).
  replace (r * (1 + d) + e - r) with (r * d + e) by ring. eapply Rle_trans; [apply Rabs_triang|]. apply Rplus_le_compat.
  - rewrite Rabs_mult, (Rabs_right r) by lra. rewrite Rmult_comm. apply Rmult_le_compat_r; [lra|]. eapply Rle_trans; [exact Hd|]. unfold u_round. apply pow2_inv_le. lia.
  - eapply Rle_trans; [exact He|]. change (/ 2 ^ 1074) with eta_round. rewrite eta_half. pose proof eta_pos. lra.
Qed.
