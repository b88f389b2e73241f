(** Finite operations with their errors, and one step of Adam. *)
From Verif.Spec Require Import BoundSpec.
From Verif.Proofs Require Import FloatReal FloatSub FloatRange BaseProofs RoundProofs AdamProofs.
From Coq Require Import Reals Psatz.
From Flocq Require Import Core BinarySingleNaN Relative Plus_error.
Import BinarySingleNaN.
Local Notation prec := 53%Z.
Local Notation emax := 1024%Z.
Local Notation bf := (binary_float prec emax).
Local Notation fex := (SpecFloat.fexp prec emax).
Local Notation rnd := (round radix2 fex (round_mode mode_NE)).
Local Open Scope R_scope.
Local Notation u := u_round.

(** * Operations *)
Lemma lim_ge1 : 1 <= lim. Proof. unfold lim. change 1 with (bpow radix2 0). apply bpow_le. lia. Qed.
Lemma u_tiny : u <= / 1000000000000.
Proof. unfold u_round. replace (2 ^ 53)%R with 9007199254740992 by (simpl; lra). lra. Qed.
Lemma vadd x y : finite_number x -> finite_number y -> Rabs (val x + val y) <= 4 * lim + 4 ->
  finite_number (fadd x y) /\ exists d, Rabs d <= u /\ val (fadd x y) = (val x + val y) * (1 + d).
Proof.
  intros (a & -> & Fa)%finite_B (b & -> & Fb)%finite_B H. rewrite !val_B in *. rewrite fadd_B, val_B.
  destruct (plus_fin a b Fa Fb H) as [F V]. split; [by apply B_finite|]. rewrite V. apply rnd_plus_err.
Qed.
Lemma vsub x y : finite_number x -> finite_number y -> Rabs (val x - val y) <= 4 * lim + 4 ->
  finite_number (fsub x y) /\ exists d e, Rabs d <= u /\ Rabs e <= eta /\ val (fsub x y) = (val x - val y) * (1 + d) + e.
Proof.
  intros (a & -> & Fa)%finite_B (b & -> & Fb)%finite_B H. rewrite !val_B in *. rewrite fsub_B, val_B.
  destruct (minus_fin a b Fa Fb H) as [F V]. split; [by apply B_finite|]. rewrite V. apply rnd_err.
Qed.
Lemma vmul x y : finite_number x -> finite_number y -> Rabs (val x * val y) <= 4 * lim ->
  finite_number (fmul x y) /\ exists d e, Rabs d <= u /\ Rabs e <= eta /\ val (fmul x y) = val x * val y * (1 + d) + e.
Proof.
  intros (a & -> & Fa)%finite_B (b & -> & Fb)%finite_B H. rewrite !val_B in *. rewrite fmul_B, val_B.
  destruct (mult_fin a b Fa Fb H) as [F V]. split; [by apply B_finite|]. rewrite V. apply rnd_err.
Qed.
Lemma vdiv x y : finite_number x -> finite_number y -> val y <> 0 -> Rabs (val x / val y) <= 4 * lim ->
  finite_number (fdiv x y) /\ exists d e, Rabs d <= u /\ Rabs e <= eta /\ val (fdiv x y) = val x / val y * (1 + d) + e.
Proof.
  intros (a & -> & Fa)%finite_B (b & -> & Fb)%finite_B N H. rewrite !val_B in *. rewrite fdiv_B, val_B.
  pose proof (Bdiv_correct prec emax _ _ mode_NE a b N) as HC. rewrite Rlt_bool_true in HC by (apply lim_big; lra).
  destruct HC as (HV & HF & _). rewrite Fa in HF. split; [by apply B_finite|]. rewrite HV. apply rnd_err.
Qed.
Lemma vsqrt x : finite_number x -> 0 <= val x ->
  finite_number (fsqrt x) /\ exists d e, Rabs d <= u /\ Rabs e <= eta /\ val (fsqrt x) = sqrt (val x) * (1 + d) + e.
Proof.
  intros (a & -> & Fa)%finite_B H. rewrite !val_B in *. rewrite fsqrt_B, val_B.
  destruct (Bsqrt_correct prec emax _ _ mode_NE a) as (HV & HF & _). split; [|rewrite HV; apply rnd_err].
  apply B_finite. rewrite HF. destruct a as [s|s| |s m e B]; try discriminate; [reflexivity|]. destruct s; [|reflexivity].
  exfalso. apply (Rle_not_lt _ _ H). apply F2R_lt_0. reflexivity.
Qed.
Lemma val_fone : val fone = 1. Proof. destruct fone_val as (o & -> & V & _). by rewrite val_B. Qed.
Lemma finite_fone : finite_number fone. Proof. destruct fone_val as (o & -> & _ & F). by apply B_finite. Qed.
Lemma finite_fzero : finite_number fzero. Proof. by split. Qed.
Lemma val_fzero : val fzero = 0. Proof. reflexivity. Qed.
Lemma fone_mul x : finite_number x -> finite_number (fmul fone x) /\ val (fmul fone x) = val x.
Proof.
  intros (a & -> & Fa)%finite_B. destruct fone_val as (o & -> & V & Fo). rewrite fmul_B, !val_B.
  pose proof (Bmult_correct prec emax _ _ mode_NE o a) as HC. rewrite V, Rmult_1_l, rnd_B in HC.
  rewrite Rlt_bool_true in HC by apply abs_B2R_lt_emax. destruct HC as (HV & HF & _). rewrite Fo, Fa in HF. split; [by apply B_finite|exact HV].
Qed.

(** * The constants *)
Lemma dec_val s m e : match e with Zneg q => True | _ => False end ->
  val (S754_finite s m e) = (if s then - IZR (Z.pos m) else IZR (Z.pos m)) / IZR (2 ^ (- e)).
Proof. intros H. unfold val, SF2R. rewrite F2R_neg_exp by (destruct e; [done..|lia]). by destruct s. Qed.
Ltac dec_solve := match goal with |- context [dec ?a ?b] =>
  let x := eval vm_compute in (dec a b) in replace (dec a b) with x by (vm_compute; reflexivity) end;
  split; [split; [vm_compute; reflexivity|exact I]|]; rewrite dec_val by exact I;
  match goal with |- context [IZR (2 ^ ?e)] => let z := eval vm_compute in (2 ^ e)%Z in change (2 ^ e)%Z with z end; lra.
Lemma c_b1 : finite_number (dec 9 10) /\ 0.8999999999 <= val (dec 9 10) <= 0.9000000001. Proof. dec_solve. Qed.
Lemma c_b1c : finite_number (dec 1 10) /\ 0.0999999999 <= val (dec 1 10) <= 0.1000000001. Proof. dec_solve. Qed.
Lemma c_b2 : finite_number (dec 999 1000) /\ 0.9989999999 <= val (dec 999 1000) <= 0.9990000001. Proof. dec_solve. Qed.
Lemma c_b2c : finite_number (dec 1 1000) /\ 0.0009999999 <= val (dec 1 1000) <= 0.0010000001. Proof. dec_solve. Qed.
Lemma c_eps : finite_number (dec 1 (10 ^ 8)) /\ 0.0000000099999999 <= val (dec 1 (10 ^ 8)) <= 0.0000000100000001. Proof. dec_solve. Qed.
Lemma c_e7 : finite_number (dec 1 (10 ^ 7)) /\ 0.0000000999999999 <= val (dec 1 (10 ^ 7)) <= 0.0000001000000001. Proof. dec_solve. Qed.
Lemma c_100 : finite_number (dec 1 100) /\ 0.0099999999 <= val (dec 1 100) <= 0.0100000001. Proof. dec_solve. Qed.

(** * Adam's moments *)
(** The bound on gradients, and what underflow may add. *)
Definition gbig : R := bpow radix2 500.
Definition kap : R := / 100000000000000000000.
Lemma gbig_lim : gbig * gbig = lim. Proof. unfold gbig, lim. by rewrite <- bpow_plus. Qed.
Lemma gbig_ge : 1000000 <= gbig.
Proof. unfold gbig. apply Rle_trans with (bpow radix2 20); [change (bpow radix2 20) with 1048576; lra|]. apply bpow_le. lia. Qed.
Lemma eta_gbig : eta * gbig <= kap * kap.
Proof.
  unfold eta, gbig. rewrite <- bpow_plus. apply Rle_trans with (bpow radix2 (- 200)); [apply bpow_le; lia|].
  change (- 200)%Z with (- 100 + - 100)%Z. rewrite bpow_plus.
  assert (H : bpow radix2 (- 100) <= kap).
  { change (-100)%Z with (Z.opp 100). rewrite bpow_opp. unfold kap. apply Rinv_le; [lra|]. change (bpow radix2 100) with 1267650600228229401496703205376. lra. }
  pose proof (bpow_ge_0 radix2 (- 100)). apply Rmult_le_compat; lra.
Qed.
Lemma eta_kap : eta <= kap * kap.
Proof. pose proof eta_gbig. pose proof gbig_ge. pose proof eta_pos. nra. Qed.
Lemma near1 d : Rabs d <= u -> 0.999999999 <= 1 + d <= 1.000000001.
Proof. intros H. pose proof u_tiny. apply Rabs_le_inv in H. lra. Qed.
Lemma near_abs e b : Rabs e <= b -> - b <= e <= b. Proof. apply Rabs_le_inv. Qed.
Lemma prod_near a b lo hi : 0 <= lo <= a -> a <= hi -> 0.999999999 <= b <= 1.000000001 -> lo * 0.999999999 <= a * b <= hi * 1.000000001.
Proof. intros. split; apply Rmult_le_compat; lra. Qed.
Lemma sq_le a b : 0 <= a <= b -> a * a <= b * b. Proof. intros. apply Rmult_le_compat; lra. Qed.

Lemma mom_real m t b c d1 e1 d2 e2 d3 : 0.8999999999 <= b <= 0.9000000001 -> 0.0999999999 <= c <= 0.1000000001 ->
  Rabs d1 <= u -> Rabs d2 <= u -> Rabs d3 <= u -> Rabs e1 <= eta -> Rabs e2 <= eta ->
  let m' := (b * m * (1 + d1) + e1 + (c * t * (1 + d2) + e2)) * (1 + d3) in
  m' * m' <= 0.9892 * (m * m) + 0.0557 * (t * t) + kap * kap.
Proof.
  intros Hb Hc D1%near1 D2%near1 D3%near1 E1%near_abs E2%near_abs m'.
  set (A := b * (1 + d1) * (1 + d3)). set (B := c * (1 + d2) * (1 + d3)). set (e := (e1 + e2) * (1 + d3)).
  assert (EQ : m' = A * m + B * t + e) by (unfold m', A, B, e; ring).
  assert (HA : 0 <= A <= 0.9001).
  { pose proof (prod_near b (1 + d1) 0.8 0.9000000001 ltac:(lra) ltac:(lra) D1) as P.
    pose proof (prod_near (b * (1 + d1)) (1 + d3) 0.7 0.90001 ltac:(lra) ltac:(lra) D3) as Q. fold A in Q. lra. }
  assert (HB : 0 <= B <= 0.10001).
  { pose proof (prod_near c (1 + d2) 0.09 0.1000000001 ltac:(lra) ltac:(lra) D2) as P.
    pose proof (prod_near (c * (1 + d2)) (1 + d3) 0.08 0.100001 ltac:(lra) ltac:(lra) D3) as Q. fold B in Q. lra. }
  pose proof eta_kap as EK. pose proof eta_pos as EP. assert (K1 : 0 < kap <= 0.0000001) by (unfold kap; lra).
  assert (KK : 0 < kap * kap <= 0.0000001 * 0.0000001) by (split; [apply Rmult_lt_0_compat; lra|apply Rmult_le_compat; lra]).
  assert (HE : Rabs e <= 3 * (kap * kap)).
  { unfold e. rewrite Rabs_mult. apply Rle_trans with (2 * eta * 1.1); [|lra]. apply Rmult_le_compat; [apply Rabs_pos..| |]; apply Rabs_le; lra. }
  assert (HEE : e * e <= 0.00001 * (kap * kap)).
  { replace (e * e) with (Rabs e * Rabs e) by (rewrite <- Rabs_mult; apply Rabs_pos_eq; apply Rle_0_sqr).
    apply Rle_trans with (3 * (kap * kap) * (3 * (kap * kap))); [apply sq_le; split; [apply Rabs_pos|exact HE]|]. clear -KK. nra. }
  rewrite EQ. set (x := A * m). set (y := B * t).
  assert (S1 : (x + y + e) * (x + y + e) <= 1.001 * ((x + y) * (x + y)) + 1001 * (e * e)).
  { assert (0 <= 0.001 * ((x + y - 1000 * e) * (x + y - 1000 * e))) by (apply Rmult_le_pos; [lra|apply Rle_0_sqr]). lra. }
  assert (S2 : (x + y) * (x + y) <= x * x / 0.82 + y * y / 0.18).
  { assert (0 <= (0.18 * x - 0.82 * y) * (0.18 * x - 0.82 * y) / 0.1476) by (apply Rmult_le_pos; [apply Rle_0_sqr|lra]). lra. }
  assert (S3 : x * x <= 0.81019 * (m * m)).
  { unfold x. replace (A * m * (A * m)) with (A * A * (m * m)) by ring. apply Rmult_le_compat_r; [apply Rle_0_sqr|].
    pose proof (sq_le A 0.9001 HA). lra. }
  assert (S4 : y * y <= 0.0100021 * (t * t)).
  { unfold y. replace (B * t * (B * t)) with (B * B * (t * t)) by ring. apply Rmult_le_compat_r; [apply Rle_0_sqr|].
    pose proof (sq_le B 0.10001 HB). lra. }
  pose proof (Rle_0_sqr m) as M0. pose proof (Rle_0_sqr t) as T0. unfold Rsqr in M0, T0. lra.
Qed.

Lemma vel_real v t b c d1 e1 d2 e2 d3 e3 d4 : 0 <= v -> Rabs t <= gbig -> 0.9989999999 <= b <= 0.9990000001 -> 0.0009999999 <= c <= 0.0010000001 ->
  Rabs d1 <= u -> Rabs d2 <= u -> Rabs d3 <= u -> Rabs d4 <= u -> Rabs e1 <= eta -> Rabs e2 <= eta -> Rabs e3 <= eta ->
  let v' := (b * v * (1 + d1) + e1 + ((c * t * (1 + d2) + e2) * t * (1 + d3) + e3)) * (1 + d4) in
  0.9989 * v + 0.00099 * (t * t) - 4 * (kap * kap) <= v' <= 0.99901 * v + 0.001001 * (t * t) + 4 * (kap * kap).
Proof.
  intros Hv Ht Hb Hc D1%near1 D2%near1 D3%near1 D4%near1 E1%near_abs E2%near_abs E3%near_abs v'.
  set (A := b * (1 + d1) * (1 + d4)). set (B := c * (1 + d2) * (1 + d3) * (1 + d4)). set (e := (e1 + e3 + e2 * t * (1 + d3)) * (1 + d4)).
  assert (EQ : v' = A * v + B * (t * t) + e) by (unfold v', A, B, e; ring).
  assert (HA : 0.9989 <= A <= 0.99901).
  { pose proof (prod_near b (1 + d1) 0.9989999999 0.9990000001 ltac:(lra) ltac:(lra) D1) as P.
    pose proof (prod_near (b * (1 + d1)) (1 + d4) 0.99899 0.999001 ltac:(lra) ltac:(lra) D4) as Q. fold A in Q. lra. }
  assert (HB : 0.00099 <= B <= 0.001001).
  { pose proof (prod_near c (1 + d2) 0.0009999999 0.0010000001 ltac:(lra) ltac:(lra) D2) as P.
    pose proof (prod_near (c * (1 + d2)) (1 + d3) 0.000999 0.00100001 ltac:(lra) ltac:(lra) D3) as P'.
    pose proof (prod_near (c * (1 + d2) * (1 + d3)) (1 + d4) 0.000998 0.0010001 ltac:(lra) ltac:(lra) D4) as Q. fold B in Q. lra. }
  pose proof eta_kap as EK. pose proof eta_gbig as EG. pose proof eta_pos as EP. pose proof gbig_ge as GG.
  assert (HE : Rabs e <= 4 * (kap * kap)).
  { unfold e. rewrite Rabs_mult. apply Rle_trans with ((2 * eta + eta * gbig * 1.1) * 1.1).
    - apply Rmult_le_compat; [apply Rabs_pos..| |apply Rabs_le; lra]. eapply Rle_trans; [apply Rabs_triang|]. apply Rplus_le_compat; [apply Rabs_le; lra|].
      rewrite !Rabs_mult. apply Rmult_le_compat; [apply Rmult_le_pos; apply Rabs_pos|apply Rabs_pos| |apply Rabs_le; lra].
      apply Rmult_le_compat; [apply Rabs_pos..|apply Rabs_le; lra|exact Ht].
    - assert (eta <= eta * gbig / 1000000) by (clear -EP GG; nra). lra. }
  apply near_abs in HE. rewrite EQ. pose proof (Rle_0_sqr t) as T0. unfold Rsqr in T0.
  assert (0.9989 * v <= A * v <= 0.99901 * v) by (split; apply Rmult_le_compat_r; lra).
  assert (0.00099 * (t * t) <= B * (t * t) <= 0.001001 * (t * t)) by (split; apply Rmult_le_compat_r; lra). lra.
Qed.

(** The moments a history of bounded gradients leaves: they are finite, and the square of the first is bounded by the second. *)
Definition moments_ok (m v : float64) : Prop :=
  at_most (2 * gbig) m /\ finite_number v /\ 0 <= val v <= 2 * lim /\ val m * val m <= 60 * val v + kap.
Lemma moments_zero : moments_ok fzero fzero.
Proof.
  pose proof gbig_ge. pose proof lim_ge1. split; [split; [apply finite_fzero|rewrite val_fzero, Rabs_R0; lra]|]. split; [apply finite_fzero|].
  rewrite val_fzero. unfold kap. split; lra.
Qed.
Lemma rabs_mul a b x y : Rabs x <= a -> Rabs y <= b -> Rabs (x * y) <= a * b.
Proof. intros. rewrite Rabs_mult. apply Rmult_le_compat; [apply Rabs_pos..|done|done]. Qed.
Lemma gbig_small c : c <= 4 -> c * gbig <= 4 * lim.
Proof. intros. rewrite <- gbig_lim. pose proof gbig_ge. nra. Qed.
Lemma moments_step t m v : at_most gbig t -> moments_ok m v -> moments_ok (adam_mom t m) (adam_vel t v).
Proof.
  intros [Ft Ht] ([Fm Hm] & Fv & Hv & HI). destruct c_b1 as [F1 C1], c_b1c as [F2 C2], c_b2 as [F3 C3], c_b2c as [F4 C4].
  pose proof gbig_ge as GG. pose proof lim_ge1 as L1. pose proof gbig_lim as GL. pose proof eta_pos as EP. pose proof eta_kap as EK.
  assert (K1 : 0 < kap <= 0.0000001) by (unfold kap; lra).
  assert (KK : kap * kap <= 0.0000001 * kap) by (apply Rmult_le_compat_r; lra).
  (* the first moment *)
  pose proof (rabs_mul 0.9000000001 (2 * gbig) (val (dec 9 10)) (val m) ltac:(apply Rabs_le; lra) Hm) as P1.
  pose proof (rabs_mul 0.1000000001 gbig (val (dec 1 10)) (val t) ltac:(apply Rabs_le; lra) Ht) as P2.
  pose proof (gbig_small 4 ltac:(lra)) as G4.
  destruct (vmul _ _ F1 Fm ltac:(lra)) as (G1 & d1 & e1 & D1 & E1 & V1).
  destruct (vmul _ _ F2 Ft ltac:(lra)) as (G2 & d2 & e2 & D2 & E2 & V2).
  assert (B1 : Rabs (val (fmul (dec 9 10) m)) <= 1.801 * gbig).
  { rewrite V1. eapply Rle_trans; [apply Rabs_triang|]. pose proof (near1 _ D1) as N1.
    pose proof (rabs_mul _ 1.000000001 _ (1 + d1) P1 ltac:(apply Rabs_le; lra)). lra. }
  assert (B2 : Rabs (val (fmul (dec 1 10) t)) <= 0.101 * gbig).
  { rewrite V2. eapply Rle_trans; [apply Rabs_triang|]. pose proof (near1 _ D2) as N2.
    pose proof (rabs_mul _ 1.000000001 _ (1 + d2) P2 ltac:(apply Rabs_le; lra)). lra. }
  pose proof (Rabs_triang (val (fmul (dec 9 10) m)) (val (fmul (dec 1 10) t))) as TR.
  destruct (vadd _ _ G1 G2 ltac:(lra)) as (G3 & d3 & D3 & V3).
  assert (B3 : Rabs (val (fadd (fmul (dec 9 10) m) (fmul (dec 1 10) t))) <= 2 * gbig).
  { rewrite V3. pose proof (near1 _ D3) as N3. pose proof (rabs_mul _ 1.000000001 _ (1 + d3) (Rle_refl _) ltac:(apply Rabs_le; lra) : Rabs ((val (fmul (dec 9 10) m) + val (fmul (dec 1 10) t)) * (1 + d3)) <= _) as Q. lra. }
  pose proof (mom_real (val m) (val t) (val (dec 9 10)) (val (dec 1 10)) d1 e1 d2 e2 d3 C1 C2 D1 D2 D3 E1 E2) as MR. cbv zeta in MR. rewrite <- V1, <- V2, <- V3 in MR.
  (* the second *)
  assert (T2 : val t * val t <= lim). { pose proof (rabs_mul _ _ _ _ Ht Ht) as Q. rewrite GL in Q. pose proof (Rle_abs (val t * val t)). lra. }
  pose proof (Rle_0_sqr (val t)) as T0. unfold Rsqr in T0.
  destruct (vmul _ _ F3 Fv) as (H1 & a1 & f1 & A1 & Q1 & W1).
  { apply Rabs_le. assert (0 <= val (dec 999 1000) * val v <= 0.9990000001 * (2 * lim)); [split; [apply Rmult_le_pos; lra|apply Rmult_le_compat; lra]|lra]. }
  pose proof (rabs_mul 0.0010000001 gbig (val (dec 1 1000)) (val t) ltac:(apply Rabs_le; lra) Ht) as P4.
  destruct (vmul _ _ F4 Ft ltac:(lra)) as (H2 & a2 & f2 & A2 & Q2 & W2).
  assert (B4 : Rabs (val (fmul (dec 1 1000) t)) <= 0.0011 * gbig).
  { rewrite W2. eapply Rle_trans; [apply Rabs_triang|]. pose proof (near1 _ A2) as N2.
    pose proof (rabs_mul _ 1.000000001 _ (1 + a2) P4 ltac:(apply Rabs_le; lra)). lra. }
  pose proof (rabs_mul _ _ _ _ B4 Ht) as P5.
  destruct (vmul _ _ H2 Ft) as (H3 & a3 & f3 & A3 & Q3 & W3); [lra|].
  assert (B5 : Rabs (val (fmul (fmul (dec 1 1000) t) t)) <= 0.0012 * lim).
  { rewrite W3. eapply Rle_trans; [apply Rabs_triang|]. pose proof (near1 _ A3) as N2.
    pose proof (rabs_mul _ 1.000000001 _ (1 + a3) P5 ltac:(apply Rabs_le; lra)).
    assert (kap * kap <= 0.000001 * lim) by lra. lra. }
  assert (B6 : Rabs (val (fmul (dec 999 1000) v)) <= 2 * lim).
  { rewrite W1. pose proof (near1 _ A1) as N1. eapply Rle_trans; [apply Rabs_triang|].
    assert (R1 : Rabs (val (dec 999 1000) * val v) <= 0.9990000001 * (2 * lim)) by (apply rabs_mul; apply Rabs_le; lra).
    pose proof (rabs_mul _ 1.000000001 _ (1 + a1) R1 ltac:(apply Rabs_le; lra)). lra. }
  pose proof (Rabs_triang (val (fmul (dec 999 1000) v)) (val (fmul (fmul (dec 1 1000) t) t))) as TR2.
  destruct (vadd _ _ H1 H3 ltac:(lra)) as (H4 & a4 & A4 & W4).
  pose proof (vel_real (val v) (val t) (val (dec 999 1000)) (val (dec 1 1000)) a1 f1 a2 f2 a3 f3 a4 ltac:(lra) Ht C3 C4 A1 A2 A3 A4 Q1 Q2 Q3) as VR.
  cbv zeta in VR. rewrite <- W2, <- W3, <- W1, <- W4 in VR.
  fold (adam_mom t m) in G3, B3, MR. fold (adam_vel t v) in H4, VR.
  split; [by split|]. split; [done|].
  assert (NN : 0 <= val (adam_vel t v)).
  { apply val_nonneg; [done|]. apply adam_vel_not_negative. unfold not_negative. destruct (fltb v fzero) eqn:EN; [|done].
    pose proof (val_neg _ Fv EN). lra. }
  split; [lra|]. lra.
Qed.

(** * Adam's step *)
Lemma kap_sqrt m v : 0 <= v -> m * m <= 60 * v + kap -> Rabs m <= 7.75 * (sqrt v + 0.0000000099999999).
Proof.
  intros Hv H. pose proof (sqrt_pos v) as S0. pose proof (sqrt_sqrt v Hv) as SS. apply Rabs_le.
  assert (P : 0 <= 7.75 * (sqrt v + 0.0000000099999999)) by lra.
  assert (Q : m * m <= (7.75 * (sqrt v + 0.0000000099999999)) * (7.75 * (sqrt v + 0.0000000099999999))).
  { eapply Rle_trans; [exact H|]. rewrite <- SS at 1. unfold kap. nra. }
  set (b := 7.75 * _) in *. clearbody b. split; nra.
Qed.
Lemma vnear_mul x a b d : a <= x <= b -> 0 <= a -> Rabs d <= u -> a * 0.999999999 <= x * (1 + d) <= b * 1.000000001.
Proof. intros H A D%near1. split; apply Rmult_le_compat; lra. Qed.
(** What the step adds, for a rate between [2^-1000] and 1. *)
Lemma step_bound lr m v : at_most 1 lr -> bpow radix2 (-1000) <= val lr -> moments_ok m v ->
  let s := fdiv (fmul (fmul fone lr) m) (fadd (fsqrt v) (dec 1 (10 ^ 8))) in
  at_most (7.9 * val lr) s.
Proof.
  intros [Fl Hl] Ll ([Fm Hm] & Fv & Hv & HI) s. destruct (fone_mul lr Fl) as [Fl1 Vl1]. destruct c_eps as [Fe Ce].
  pose proof gbig_ge as GG. pose proof lim_ge1 as L1. pose proof gbig_lim as GL. pose proof eta_pos as EP. pose proof eta_kap as EK.
  assert (K1 : 0 < kap <= 0.00000000000000000001) by (unfold kap; lra).
  assert (KK : kap * kap <= 0.00000000000000000001 * kap) by (apply Rmult_le_compat_r; lra).
  assert (EL : eta <= 0.00000000000000000001 * val lr).
  { apply Rle_trans with (bpow radix2 (-70 + -1000)); [unfold eta; apply bpow_le; lia|]. rewrite bpow_plus.
    apply Rmult_le_compat; [apply bpow_ge_0..| |exact Ll]. change (-70)%Z with (Z.opp 70). rewrite bpow_opp. change (bpow radix2 70) with 1180591620717411303424. lra. }
  pose proof (bpow_gt_0 radix2 (-1000)) as LP. rewrite (Rabs_pos_eq (val lr)) in Hl by lra.
  destruct (vmul _ _ Fl1 Fm) as (G1 & d1 & e1 & D1 & E1 & V1).
  { rewrite Vl1. eapply Rle_trans; [apply (rabs_mul 1 (2 * gbig)); [apply Rabs_le; lra|exact Hm]|]. pose proof (gbig_small 2 ltac:(lra)). lra. }
  destruct (vsqrt v Fv ltac:(lra)) as (G2 & d2 & e2 & D2 & E2 & V2). pose proof (sqrt_pos (val v)) as S0.
  assert (SB : sqrt (val v) <= 2 * gbig).
  { rewrite <- (sqrt_square (2 * gbig)) by lra. apply sqrt_le_1_alt. lra. }
  set (S := sqrt (val v)) in *. pose proof (kap_sqrt _ _ (proj1 Hv) HI) as MB. fold S in MB. set (B := S + 0.0000000099999999) in *.
  pose proof (gbig_small 4 ltac:(lra)) as G2S.
  assert (Q1 : 0.999999999 * S - eta <= val (fsqrt v) <= 1.000000001 * S + eta).
  { rewrite V2. apply near1 in D2. apply near_abs in E2. assert (0.999999999 * S <= S * (1 + d2) <= 1.000000001 * S); [|lra].
    rewrite (Rmult_comm S (1 + d2)). split; apply Rmult_le_compat_r; lra. }
  assert (BIG : kap * kap <= lim) by lra.
  destruct (vadd _ _ G2 Fe) as (G3 & d3 & D3 & V3); [apply Rabs_le; lra|].
  set (den := fadd (fsqrt v) (dec 1 (10 ^ 8)%Z)) in *.
  assert (B0 : 0.0000000099999999 <= B) by (unfold B; lra).
  assert (DB : 0.9999 * B <= val den).
  { rewrite V3. apply near1 in D3. apply Rle_trans with (0.99999 * B * 0.999999999); [lra|]. apply Rmult_le_compat; unfold B in *; lra. }
  assert (PB : Rabs (val (fmul (fmul fone lr) m)) <= 7.7501 * (val lr * B)).
  { rewrite V1, Vl1. eapply Rle_trans; [apply Rabs_triang|]. apply near1 in D1.
    assert (R1 : Rabs (val lr * val m) <= val lr * (7.75 * B)) by (apply rabs_mul; [rewrite Rabs_pos_eq; lra|exact MB]).
    pose proof (rabs_mul _ 1.000000001 _ (1 + d1) R1 ltac:(apply Rabs_le; lra)) as R2.
    assert (val lr * 0.0000000099999999 <= val lr * B) by (apply Rmult_le_compat_l; lra). lra. }
  assert (LB : 0 <= val lr * B) by (apply Rmult_le_pos; lra).
  assert (DP : 0 < val den) by lra.
  assert (QB : Rabs (val (fmul (fmul fone lr) m) / val den) <= 7.752 * val lr).
  { unfold Rdiv. rewrite Rabs_mult, Rabs_inv, (Rabs_pos_eq (val den)) by lra. apply (Rmult_le_reg_r (val den)); [exact DP|].
    rewrite Rmult_assoc, Rinv_l, Rmult_1_r by lra. eapply Rle_trans; [exact PB|].
    apply Rle_trans with (7.752 * val lr * (0.9999 * B)); [lra|]. apply Rmult_le_compat_l; lra. }
  destruct (vdiv _ _ G1 G3 ltac:(lra) ltac:(lra)) as (G4 & d4 & e4 & D4 & E4 & V4). split; [exact G4|]. subst s. rewrite V4.
  eapply Rle_trans; [apply Rabs_triang|]. apply near1 in D4. pose proof (rabs_mul _ 1.000000001 _ (1 + d4) QB ltac:(apply Rabs_le; lra)). lra.
Qed.
(** The parameter after the step. *)
Lemma par_step lr m v w b : at_most 1 lr -> bpow radix2 (-1000) <= val lr -> moments_ok m v -> at_most b w -> b <= lim ->
  finite_number (adam_par lr m v w) /\ Rabs (val (adam_par lr m v w) - val w) <= 8 * val lr + u * Rabs (val w).
Proof.
  intros HL Ll HM [Fw Hw] Hb. pose proof (step_bound lr m v HL Ll HM) as [Fs Hs]. cbv zeta in Fs, Hs. unfold adam_par.
  set (s := fdiv _ _) in *. pose proof (bpow_gt_0 radix2 (-1000)) as LP. destruct HL as [_ HL]. rewrite Rabs_pos_eq in HL by lra. pose proof (gbig_small 4 ltac:(lra)). pose proof gbig_ge.
  pose proof (Rabs_triang (val w) (val s)) as T. destruct (vadd _ _ Fw Fs ltac:(lra)) as (F & d & D & V). split; [exact F|]. rewrite V.
  replace ((val w + val s) * (1 + d) - val w) with (val s + d * (val w + val s)) by ring. eapply Rle_trans; [apply Rabs_triang|].
  pose proof (rabs_mul u (Rabs (val w) + 7.9 * val lr) d (val w + val s) D ltac:(lra)) as Q. pose proof u_tiny. pose proof u_pos.
  assert (u * (7.9 * val lr) <= 0.001 * (7.9 * val lr)) by (apply Rmult_le_compat_r; lra). lra.
Qed.
