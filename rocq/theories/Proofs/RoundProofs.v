(** Rounding errors of weighted sums and signed sums. *)
From Verif.Spec Require Import NodeSpec BatchSpec SrpSpec RoundSpec.
From Verif.Proofs Require Import FloatReal FloatSub FloatRange BaseProofs NodeMore SrpProofs.
From Coq Require Import Reals Psatz.
From Flocq Require Import Core BinarySingleNaN Relative Plus_error.
Import BinarySingleNaN.
Local Notation prec := 53%Z.
Local Notation emax := 1024%Z.
Local Notation bf := (binary_float prec emax).
Local Notation fex := (SpecFloat.fexp prec emax).
Local Notation rnd := (round radix2 fex (round_mode mode_NE)).
Local Open Scope R_scope.
Local Notation u := u_round.
Definition eta : R := bpow radix2 (-1075).

Lemma u_bpow : u = / 2 * bpow radix2 (-53 + 1).
Proof. unfold u_round. change (-53 + 1)%Z with (-52)%Z. cbn [bpow radix2]. change (Z.pow_pos radix2 52) with (2 ^ 52)%Z. change (2 ^ 52)%Z with 4503599627370496%Z.
  replace (2 ^ 53)%R with 9007199254740992 by (simpl; lra). lra. Qed.
Lemma u_pos : 0 < u. Proof. unfold u_round. apply Rinv_0_lt_compat. apply pow_lt. lra. Qed.
Lemma eta_pos : 0 < eta. Proof. apply bpow_gt_0. Qed.
Lemma rnd_err x : exists d e, Rabs d <= u /\ Rabs e <= eta /\ rnd x = x * (1 + d) + e.
Proof.
  destruct (error_N_FLT radix2 (-1074) 53 ltac:(lia) (fun z => negb (Z.even z)) x) as (d & e & Hd & He & _ & H).
  exists d, e. split; [rewrite u_bpow; exact Hd|]. split; [|exact H].
  unfold eta. change (-1075)%Z with (-1 + -1074)%Z. rewrite bpow_plus. cbn [bpow]. simpl (Z.pow_pos _ 1). exact He.
Qed.
Lemma rnd_plus_err (x y : bf) : exists d, Rabs d <= u /\ rnd (B2R x + B2R y) = (B2R x + B2R y) * (1 + d).
Proof.
  destruct (FLT_plus_error_N_ex radix2 (-1074) 53 (fun z => negb (Z.even z)) (B2R x) (B2R y)) as (d & Hd & H).
  - apply generic_format_B2R.
  - apply generic_format_B2R.
  - exists d. split; [|exact H]. assert (UR : u_ro radix2 53 = u) by (symmetry; apply u_bpow). eapply Rle_trans; [exact Hd|]. rewrite UR. pose proof u_pos.
    apply (Rmult_le_reg_r (1 + u)); [lra|]. unfold Rdiv. rewrite Rmult_assoc, Rinv_l by lra. nra.
Qed.
Lemma pow_gamma k : INR k * u < 1 -> (1 + u) ^ k <= / (1 - INR k * u).
Proof.
  pose proof u_pos as U. induction k as [|k IH]; intros H.
  - cbn [pow INR]. rewrite Rmult_0_l, Rminus_0_r, Rinv_1. lra.
  - rewrite S_INR in *. assert (H1 : INR k * u < 1) by lra. specialize (IH H1). cbn [Rpow_def.pow].
    apply Rle_trans with ((1 + u) * / (1 - INR k * u)); [apply Rmult_le_compat_l; lra|].
    assert (0 <= INR k) by apply pos_INR.
    apply (Rmult_le_reg_r (1 - INR k * u)); [lra|]. rewrite Rmult_assoc, Rinv_l, Rmult_1_r by lra.
    apply (Rmult_le_reg_l (1 - (INR k + 1) * u)); [lra|]. rewrite <- Rmult_assoc, Rinv_r by lra. nra.
Qed.
Lemma pow_ge k : 1 <= (1 + u) ^ k.
Proof. apply pow_R1_Rle. pose proof u_pos. lra. Qed.
Lemma small_k k : (Z.of_nat k <= 2 ^ 51)%Z -> INR k * u <= / 4.
Proof.
  intros H. rewrite INR_IZR_INZ. apply IZR_le in H. unfold u_round. replace (2 ^ 53)%R with 9007199254740992 by (simpl; lra).
  change (IZR (2 ^ 51)) with 2251799813685248 in H. lra.
Qed.
Lemma pow_small k : (Z.of_nat k <= 2 ^ 51)%Z -> (1 + u) ^ k <= 4 / 3.
Proof.
  intros H. pose proof (small_k k H) as S0. eapply Rle_trans; [apply pow_gamma; lra|].
  apply (Rmult_le_reg_l (1 - INR k * u)); [lra|]. rewrite Rinv_r by lra. lra.
Qed.

(** * Finite operations *)
Definition lim : R := bpow radix2 1000.
Lemma rnd_bound x : Rabs (rnd x) <= 2 * Rabs x + 1.
Proof.
  destruct (rnd_err x) as (d & e & Hd & He & ->). pose proof u_pos.
  assert (U : u <= 1). { unfold u_round. replace (2 ^ 53)%R with 9007199254740992 by (simpl; lra). lra. }
  assert (ET : eta <= 1). { unfold eta. change 1 with (bpow radix2 0). apply bpow_le. lia. }
  eapply Rle_trans; [apply Rabs_triang|]. rewrite Rabs_mult.
  assert (Rabs (1 + d) <= 2). { eapply Rle_trans; [apply Rabs_triang|]. rewrite Rabs_R1. lra. }
  pose proof (Rabs_pos x). nra.
Qed.
Lemma lim_big x : Rabs x <= 4 * lim + 4 -> Rabs (rnd x) < bpow radix2 emax.
Proof.
  intros H. eapply Rle_lt_trans; [apply rnd_bound|].
  assert (L : bpow radix2 1010 < bpow radix2 emax) by (apply bpow_lt; lia).
  change 1010%Z with (10 + 1000)%Z in L. rewrite bpow_plus in L. fold lim in L. change (bpow radix2 10) with 1024 in L.
  assert (1 <= lim) by (unfold lim; change 1 with (bpow radix2 0); apply bpow_le; lia). lra.
Qed.
Lemma mult_fin (x y : bf) : is_finite x = true -> is_finite y = true -> Rabs (B2R x * B2R y) <= 4 * lim ->
  is_finite (Bmult mode_NE x y) = true /\ B2R (Bmult mode_NE x y) = rnd (B2R x * B2R y).
Proof.
  intros Fx Fy H. pose proof (Bmult_correct prec emax _ _ mode_NE x y) as HC. rewrite Rlt_bool_true in HC by (apply lim_big; lra).
  destruct HC as (HV & HF & _). split; [|exact HV]. rewrite HF, Fx, Fy. reflexivity.
Qed.
Lemma plus_fin (x y : bf) : is_finite x = true -> is_finite y = true -> Rabs (B2R x + B2R y) <= 4 * lim + 4 ->
  is_finite (Bplus mode_NE x y) = true /\ B2R (Bplus mode_NE x y) = rnd (B2R x + B2R y).
Proof.
  intros Fx Fy H. pose proof (Bplus_correct prec emax _ _ mode_NE x y Fx Fy) as HC. rewrite Rlt_bool_true in HC by (apply lim_big; lra).
  destruct HC as (HV & HF & _). split; [exact HF|exact HV].
Qed.
Lemma minus_fin (x y : bf) : is_finite x = true -> is_finite y = true -> Rabs (B2R x - B2R y) <= 4 * lim + 4 ->
  is_finite (Bminus mode_NE x y) = true /\ B2R (Bminus mode_NE x y) = rnd (B2R x - B2R y).
Proof.
  intros Fx Fy H. pose proof (Bminus_correct prec emax _ _ mode_NE x y Fx Fy) as HC. rewrite Rlt_bool_true in HC by (apply lim_big; lra).
  destruct HC as (HV & HF & _). split; [exact HF|exact HV].
Qed.
Lemma sumR_snoc xs x : sumR (xs ++ [x]) = sumR xs + x.
Proof. induction xs as [|y xs IH]; cbn; [ring|]. unfold sumR in IH. rewrite IH. ring. Qed.
Lemma total_abs {X} (f : X -> R) xs : Rabs (sumR (map f xs)) <= sumR (map (fun x => Rabs (f x)) xs).
Proof. induction xs as [|y xs IH]; cbn; [rewrite Rabs_R0; lra|]. eapply Rle_trans; [apply Rabs_triang|]. unfold sumR in IH. lra. Qed.
Lemma total_pos {X} (f : X -> R) xs : 0 <= sumR (map (fun x => Rabs (f x)) xs).
Proof. eapply Rle_trans; [apply Rabs_pos|apply total_abs]. Qed.

(** * Weighted sums *)
Definition err (k : nat) (A : R) : R := ((1 + u) ^ (S k) - 1) * A + INR k * eta * (1 + u) ^ k.
(** One step: adding [y], which is within [u Y + eta] of the exact term. *)
Lemma step_err k (A S0 Y s y d t : R) : 0 <= A -> Rabs S0 <= A -> Rabs (s - S0) <= err k A ->
  Rabs (y - t) <= u * Y + eta -> Rabs t <= Y -> Rabs d <= u ->
  Rabs ((s + y) * (1 + d) - (S0 + t)) <= err (Datatypes.S k) (A + Y).
Proof.
  intros HA HS HE HY HT Hd. pose proof u_pos as U. pose proof eta_pos as ET.
  assert (HY0 : 0 <= Y) by (eapply Rle_trans; [apply Rabs_pos|exact HT]).
  replace ((s + y) * (1 + d) - (S0 + t)) with ((1 + d) * ((s - S0) + (y - t)) + d * (S0 + t)) by ring.
  eapply Rle_trans; [apply Rabs_triang|]. rewrite !Rabs_mult.
  assert (D1 : Rabs (1 + d) <= 1 + u). { eapply Rle_trans; [apply Rabs_triang|]. rewrite Rabs_R1. lra. }
  assert (B1 : Rabs (s - S0 + (y - t)) <= err k A + (u * Y + eta)) by (eapply Rle_trans; [apply Rabs_triang|]; lra).
  assert (B2 : Rabs (S0 + t) <= A + Y) by (eapply Rle_trans; [apply Rabs_triang|]; lra).
  assert (B3 : Rabs (1 + d) * Rabs (s - S0 + (y - t)) <= (1 + u) * (err k A + (u * Y + eta))) by (apply Rmult_le_compat; [apply Rabs_pos..|lra|lra]).
  assert (B4 : Rabs d * Rabs (S0 + t) <= u * (A + Y)) by (apply Rmult_le_compat; [apply Rabs_pos..|lra|lra]).
  assert (B5 : (1 + u) * (err k A + (u * Y + eta)) + u * (A + Y) <= err (Datatypes.S k) (A + Y)).
  { unfold err. rewrite S_INR. cbn [Rpow_def.pow]. pose proof (pow_ge k) as P. set (q := (1 + u) ^ k) in *. set (n := INR k).
    assert (E1 : ((1 + u) * ((1 + u) * q) - 1) * (A + Y) + (n + 1) * eta * ((1 + u) * q) -
      ((1 + u) * (((1 + u) * q - 1) * A + n * eta * q + (u * Y + eta)) + u * (A + Y)) =
      (1 + u) * (1 + u) * (q - 1) * Y + (1 + u) * eta * (q - 1)) by ring.
    assert (0 <= (1 + u) * (1 + u) * (q - 1) * Y) by (repeat apply Rmult_le_pos; lra).
    assert (0 <= (1 + u) * eta * (q - 1)) by (repeat apply Rmult_le_pos; lra). lra. }
  lra.
Qed.
Lemma err_small k A : 0 <= A -> (Z.of_nat (S k) <= 2 ^ 51)%Z -> err k A <= A + 1.
Proof.
  intros HA Hk. pose proof (pow_small (S k) Hk) as P1. pose proof (pow_small k ltac:(lia)) as P2. pose proof (pow_ge k) as P3. unfold err.
  assert (N : INR k * eta <= / 2).
  { apply Rle_trans with (INR k * u * / 1); [|pose proof (small_k k ltac:(lia)); lra].
    rewrite Rinv_1, Rmult_1_r. apply Rmult_le_compat_l; [apply pos_INR|]. rewrite u_bpow. unfold eta.
    change (-53 + 1)%Z with (-52)%Z. change (/ 2) with (bpow radix2 (-1)). rewrite <- bpow_plus. apply bpow_le. lia. }
  assert (0 <= INR k * eta) by (apply Rmult_le_pos; [apply pos_INR|pose proof eta_pos; lra]). nra.
Qed.
Lemma dot_err (ps : list (bf * bf)) : Forall (fun p => is_finite p.1 = true /\ is_finite p.2 = true) ps ->
  (Z.of_nat (S (length ps)) <= 2 ^ 51)%Z ->
  let A := sumR (map (fun p : bf * bf => Rabs (B2R p.1 * B2R p.2)) ps) in
  A <= lim ->
  let s := fold_left (fun s p => Bplus mode_NE s (Bmult mode_NE p.1 p.2)) ps (B754_zero false) in
  is_finite s = true /\ Rabs (B2R s - sumR (map (fun p : bf * bf => B2R p.1 * B2R p.2) ps)) <= err (length ps) A.
Proof.
  induction ps as [|[w x] ps IH] using rev_ind; intros HF HN A HA s.
  - split; [reflexivity|]. subst A s. cbn. unfold err. cbn [sumR fold_right map INR]. rewrite Rminus_0_r, Rabs_R0, Rmult_0_r, !Rmult_0_l. lra.
  - apply Forall_app in HF as [HF1 HF2]. apply Forall_cons in HF2 as [[Fw Fx] _]. cbn [fst snd] in *.
    rewrite app_length in HN. cbn [length] in HN. subst A s. rewrite !map_app, !fold_left_app, app_length, Nat.add_comm in *. cbn [map fold_left length Nat.add] in *.
    rewrite !sumR_snoc in *. cbn [fst snd] in *.
    set (A := sumR (map (fun p : bf * bf => Rabs (B2R p.1 * B2R p.2)) ps)) in *. set (Y := Rabs (B2R w * B2R x)) in *.
    assert (Y0 : 0 <= Y) by apply Rabs_pos. assert (A0 : 0 <= A) by apply (total_pos (fun p : bf * bf => B2R p.1 * B2R p.2)).
    destruct IH as [IF IE]; [exact HF1|lia|lra|].
    set (s := fold_left (fun s p => Bplus mode_NE s (Bmult mode_NE p.1 p.2)) ps (B754_zero false)) in *.
    destruct (mult_fin w x Fw Fx) as [MF MV]; [fold Y; lra|].
    pose proof (total_abs (fun p : bf * bf => B2R p.1 * B2R p.2) ps) as TA. cbn beta in TA. fold A in TA.
    set (S0 := sumR (map (fun p : bf * bf => B2R p.1 * B2R p.2) ps)) in *.
    destruct (rnd_err (B2R w * B2R x)) as (d & e & Hd & He & HR).
    assert (HY : Rabs (B2R (Bmult mode_NE w x) - B2R w * B2R x) <= u * Y + eta).
    { rewrite MV, HR. replace (_ - _) with (d * (B2R w * B2R x) + e) by ring. eapply Rle_trans; [apply Rabs_triang|]. rewrite Rabs_mult. fold Y. nra. }
    assert (U1 : u <= / 8). { unfold u_round. replace (2 ^ 53)%R with 9007199254740992 by (simpl; lra). lra. }
    assert (ET : eta <= / 8). { unfold eta. change (/ 8) with (bpow radix2 (-3)). apply bpow_le. lia. }
    assert (MB : Rabs (B2R (Bmult mode_NE w x)) <= 2 * Y + 1).
    { replace (B2R (Bmult mode_NE w x)) with ((B2R (Bmult mode_NE w x) - B2R w * B2R x) + B2R w * B2R x) by ring.
      eapply Rle_trans; [apply Rabs_triang|]. fold Y. nra. }
    assert (SB : Rabs (B2R s) <= 2 * A + 1).
    assert (HN1 : (Z.of_nat (S (length ps)) <= 2 ^ 51)%Z) by lia.
    { replace (B2R s) with ((B2R s - S0) + S0) by ring. eapply Rle_trans; [apply Rabs_triang|]. pose proof (err_small (length ps) A A0 HN1). lra. }
    destruct (plus_fin s (Bmult mode_NE w x) IF MF) as [PF PV].
    { eapply Rle_trans; [apply Rabs_triang|]. lra. }
    split; [exact PF|]. rewrite PV. destruct (rnd_plus_err s (Bmult mode_NE w x)) as (d' & Hd' & ->).
    apply step_err; [exact A0|exact TA|exact IE|exact HY|unfold Y; lra|exact Hd'].
Qed.
Lemma pow_gamma1 k : (Z.of_nat k <= 2 ^ 51)%Z -> (1 + u) ^ k - 1 <= gamma k.
Proof.
  intros H. pose proof (small_k k H) as S0. pose proof (pow_gamma k ltac:(lra)) as P. unfold gamma.
  replace (INR k * u / (1 - INR k * u)) with (/ (1 - INR k * u) - 1) by (field; lra). lra.
Qed.
Lemma eta_half : eta_round = 2 * eta.
Proof.
  unfold eta_round, eta. change (-1075)%Z with (-1 + -1074)%Z. rewrite bpow_plus. change (bpow radix2 (-1)) with (/ 2).
  change (-1074)%Z with (Z.opp 1074). rewrite bpow_opp. change (bpow radix2 1074) with (bpow radix2 (Z.of_nat (Z.to_nat 1074))).
  rewrite bpow_powerRZ. rewrite <- pow_powerRZ. change (Z.to_nat 1074) with 1074%nat. change (IZR radix2) with 2. lra.
Qed.
Lemma err_final k A : 0 <= A -> (Z.of_nat (S k) <= 2 ^ 51)%Z -> err k A <= gamma (S k) * A + INR k * eta_round.
Proof.
  intros HA Hk. unfold err. apply Rplus_le_compat.
  - apply Rmult_le_compat_r; [exact HA|]. by apply pow_gamma1.
  - rewrite eta_half. assert (Hk' : (Z.of_nat k <= 2 ^ 51)%Z) by lia. pose proof (pow_small k Hk') as P. pose proof (pow_ge k) as Q. pose proof eta_pos.
    rewrite Rmult_assoc. apply Rmult_le_compat_l; [apply pos_INR|]. nra.
Qed.
Lemma val_B (x : bf) : val (B2SF x) = B2R x.
Proof. by destruct x. Qed.
Lemma finite_B x : finite_number x -> exists b : bf, x = B2SF b /\ is_finite b = true.
Proof. intros [H K]. apply representable_B in H as [b ->]. exists b. split; [done|]. by destruct b. Qed.
Lemma B_finite (b : bf) : is_finite b = true -> finite_number (B2SF b).
Proof. intros H. split; [apply representable_B; by exists b|]. by destruct b. Qed.
Lemma weighted_sum_fold w data sum : weighted_sum w data = Ok sum ->
  sum = fold_left (fun s p => fadd s (fmul (weight_for w p) (iv_value p))) data fzero.
Proof.
  unfold weighted_sum. generalize fzero. induction data as [|p data IH]; intros s H; [by injection H as ->|].
  cbn [foldM] in H. destruct (sget w (iv_index p)) as [y|] eqn:E1; [|done]. apply sget_Ok in E1 as [_ E1]. cbn [fold_left].
  unfold weight_for at 2. rewrite E1. by apply IH.
Qed.
Lemma weights_finite w p : Forall finite_number w -> finite_number (weight_for w p).
Proof.
  intros H. unfold weight_for. destruct (w !! _) as [x|] eqn:E1; [|by split]. cbn. rewrite Forall_forall in H. apply H. by apply elem_of_list_lookup_2 in E1.
Qed.
Lemma sum_err w b data : Forall finite_number w -> finite_number b -> Forall (fun p => finite_number (iv_value p)) data ->
  (Z.of_nat (length data) <= 2 ^ 50)%Z -> magnitude w b data <= 2 ^ 1000 ->
  let z := fadd (fold_left (fun s p => fadd s (fmul (weight_for w p) (iv_value p))) data fzero) b in
  finite_number z /\
  Rabs (val z - exact_sum w b data) <= gamma (S (S (length data))) * magnitude w b data + INR (S (length data)) * eta_round.
Proof.
  intros HW HB HD HN HM z.
  assert (P : exists ps : list (bf * bf), Forall2 (fun p q => weight_for w p = B2SF q.1 /\ iv_value p = B2SF q.2 /\ is_finite q.1 = true /\ is_finite q.2 = true) data ps).
  { clear -HW HD. induction HD as [|p data Hp HD IH]; [by exists []|]. destruct IH as [ps IH].
    destruct (finite_B _ (weights_finite w p HW)) as (x & Ex & Fx), (finite_B _ Hp) as (y & Ey & Fy). exists ((x, y) :: ps). by constructor. }
  destruct P as [ps P]. destruct (finite_B _ HB) as (bb & -> & Fb).
  assert (LIM : lim = 2 ^ 1000).
  { unfold lim. change 1000%Z with (Z.of_nat (Z.to_nat 1000)). rewrite bpow_powerRZ, <- pow_powerRZ. reflexivity. }
  rewrite <- LIM in HM.
  assert (Q : fold_left (fun s p => fadd s (fmul (weight_for w p) (iv_value p))) data fzero =
              B2SF (fold_left (fun s p => Bplus mode_NE s (Bmult mode_NE p.1 p.2)) ps (B754_zero false)) /\
    map (fun p => val (weight_for w p) * val (iv_value p)) data = map (fun p : bf * bf => B2R p.1 * B2R p.2) ps /\
    map (fun p => Rabs (val (weight_for w p) * val (iv_value p))) data = map (fun p : bf * bf => Rabs (B2R p.1 * B2R p.2)) ps /\
    Forall (fun p : bf * bf => is_finite p.1 = true /\ is_finite p.2 = true) ps /\ length data = length ps).
  { change fzero with (B2SF (B754_zero false : bf)). generalize (B754_zero false : bf). clear -P.
    induction P as [|p q data ps (E1 & E2 & F1 & F2) P IH]; intros s; [done|]. cbn [fold_left map length]. rewrite E1, E2, fmul_B, fadd_B, !val_B.
    destruct (IH (Bplus mode_NE s (Bmult mode_NE q.1 q.2))) as (I1 & I2 & I3 & I4 & I5). rewrite I1, I2, I3, I5. repeat split; [done..|]. by constructor. }
  destruct Q as (Q1 & Q2 & Q3 & Q4 & Q5). subst z. unfold magnitude, exact_sum in *. rewrite Q1, Q2, Q3, Q5, val_B in *. clear Q1 Q2 Q3 Q5 P HD HW.
  set (A := sumR (map (fun p : bf * bf => Rabs (B2R p.1 * B2R p.2)) ps)) in *.
  assert (A0 : 0 <= A) by apply (total_pos (fun p : bf * bf => B2R p.1 * B2R p.2)).
  pose proof (Rabs_pos (B2R bb)) as B0.
  assert (HN1 : (Z.of_nat (S (length ps)) <= 2 ^ 51)%Z) by lia. assert (HN2 : (Z.of_nat (S (S (length ps))) <= 2 ^ 51)%Z) by lia.
  destruct (dot_err ps Q4 HN1) as [IF IE]; [fold A; lra|]. fold A in IE.
  set (s := fold_left (fun s p => Bplus mode_NE s (Bmult mode_NE p.1 p.2)) ps (B754_zero false)) in *.
  pose proof (total_abs (fun p : bf * bf => B2R p.1 * B2R p.2) ps) as TA. cbn beta in TA. fold A in TA.
  set (S0 := sumR (map (fun p : bf * bf => B2R p.1 * B2R p.2) ps)) in *.
  assert (SB : Rabs (B2R s) <= 2 * A + 1).
  { replace (B2R s) with ((B2R s - S0) + S0) by ring. eapply Rle_trans; [apply Rabs_triang|]. pose proof (err_small (length ps) A A0 HN1). lra. }
  destruct (plus_fin s bb IF Fb) as [PF PV]. { eapply Rle_trans; [apply Rabs_triang|]. lra. }
  rewrite fadd_B, val_B. split; [by apply B_finite|]. rewrite PV. destruct (rnd_plus_err s bb) as (d & Hd & ->).
  eapply Rle_trans; [|apply err_final; [lra|exact HN2]].
  apply step_err; [exact A0|exact TA|exact IE| |lra|exact Hd].
  replace (_ - _) with 0 by ring. rewrite Rabs_R0. pose proof u_pos. pose proof eta_pos. nra.
Qed.
Lemma val_neg x : finite_number x -> fltb x fzero = true -> val x < 0.
Proof. intros [_ K]. destruct x as [[]|[]| |[] mm e]; try done. intros _. unfold val, SF2R. apply F2R_lt_0. reflexivity. Qed.
Lemma val_nonneg x : finite_number x -> fltb x fzero = false -> 0 <= val x.
Proof. intros [_ K]. destruct x as [[]|[]| |[] mm e]; try done; intros _; unfold val, SF2R; try lra. apply F2R_ge_0. cbn. lia. Qed.
Lemma activation_err m c n ly v data i a n' m' :
  rep m c n ly v -> ly_ok ly -> node_GetActivation c n data i m = Ok ((a, n'), m') ->
  Forall finite_number (v_w v) -> finite_number (v_bias v) -> Forall (fun p => finite_number (iv_value p)) data ->
  (Z.of_nat (length data) <= 2 ^ 50)%Z -> magnitude (v_w v) (v_bias v) data <= 2 ^ 1000 ->
  finite_number a /\
  Rabs (val a - activation_of (v_type v) (exact_sum (v_w v) (v_bias v) data)) <=
    gamma (length data + 2) * magnitude (v_w v) (v_bias v) data + INR (length data + 1) * eta_round.
Proof.
  intros HR HL H HW HB HD HN HM. destruct (activation_value _ _ _ _ _ _ _ _ _ _ HR HL H) as (_ & (sum & Hs & HT) & _ & _).
  apply weighted_sum_fold in Hs as ->. destruct (sum_err _ _ _ HW HB HD HN HM) as [F EB].
  replace (length data + 2)%nat with (S (S (length data))) by lia. replace (length data + 1)%nat with (S (length data)) by lia.
  set (z := fadd (fold_left _ _ _) _) in *. set (X := exact_sum _ _ _) in *. set (B := _ + _) in EB |- *.
  destruct HT as [[-> ->]|[-> ->]]; cbn [activation_of]; [|by split].
  destruct (fltb z fzero) eqn:L.
  - split; [by split|]. change (val fzero) with 0. pose proof (val_neg z F L) as N. eapply Rle_trans; [|exact EB].
    unfold Rmax. destruct (Rle_dec 0 X); [|rewrite Rminus_0_r, Rabs_R0; apply Rabs_pos].
    rewrite !Rabs_left1 by lra. lra.
  - split; [done|]. pose proof (val_nonneg z F L) as N. eapply Rle_trans; [|exact EB].
    unfold Rmax. destruct (Rle_dec 0 X) as [|NX]; [lra|]. rewrite !Rabs_right by lra. lra.
Qed.

(** * Signed sums *)
Definition sgn (q : bf * bool) : R := if q.2 then B2R q.1 else - B2R q.1.
Definition addb (s : bf) (q : bf * bool) : bf := if q.2 then Bplus mode_NE s q.1 else Bminus mode_NE s q.1.
Lemma signed_err (ps : list (bf * bool)) : Forall (fun p => is_finite p.1 = true) ps -> (Z.of_nat (S (length ps)) <= 2 ^ 51)%Z ->
  let A := sumR (map (fun p => Rabs (sgn p)) ps) in A <= lim ->
  let s := fold_left addb ps (B754_zero false) in
  is_finite s = true /\ Rabs (B2R s - sumR (map sgn ps)) <= ((1 + u) ^ (length ps) - 1) * A.
Proof.
  induction ps as [|[x pl] ps IH] using rev_ind; intros HF HN A HA s.
  - split; [reflexivity|]. subst A s. cbn. rewrite Rminus_0_r, Rabs_R0. lra.
  - apply Forall_app in HF as [HF1 HF2]. apply Forall_cons in HF2 as [Fx _]. cbn [fst snd] in *.
    rewrite app_length in HN. cbn [length] in HN. subst A s. rewrite !map_app, !fold_left_app, app_length, Nat.add_comm in *. cbn [map fold_left length Nat.add] in *.
    rewrite !sumR_snoc in *.
    set (A := sumR (map (fun p => Rabs (sgn p)) ps)) in *. set (Y := Rabs (sgn (x, pl))) in *.
    assert (Y0 : 0 <= Y) by apply Rabs_pos. assert (A0 : 0 <= A) by apply (total_pos sgn).
    destruct IH as [IF IE]; [exact HF1|lia|lra|]. set (s := fold_left addb ps (B754_zero false)) in *.
    pose proof (total_abs sgn ps) as TA. cbn beta in TA. fold A in TA. set (S0 := sumR (map sgn ps)) in *.
    assert (HN1 : (Z.of_nat (length ps) <= 2 ^ 51)%Z) by lia. pose proof (pow_small _ HN1) as P1. pose proof (pow_ge (length ps)) as P2. pose proof u_pos as U.
    assert (SB : Rabs (B2R s) <= 2 * A).
    { replace (B2R s) with ((B2R s - S0) + S0) by ring. eapply Rle_trans; [apply Rabs_triang|]. nra. }
    assert (ST : is_finite (addb s (x, pl)) = true /\ exists d, Rabs d <= u /\ B2R (addb s (x, pl)) = (B2R s + sgn (x, pl)) * (1 + d)).
    { assert (TB : Rabs (B2R s + sgn (x, pl)) <= 4 * lim + 4) by (eapply Rle_trans; [apply Rabs_triang|]; fold Y; lra).
      unfold addb, sgn in *. cbn [fst snd] in *. destruct pl.
      - destruct (plus_fin s x IF Fx TB) as [PF PV]. split; [exact PF|]. rewrite PV. apply rnd_plus_err.
      - destruct (minus_fin s x IF Fx TB) as [PF PV]. split; [exact PF|]. rewrite PV.
        destruct (rnd_plus_err s (Bopp x)) as (d & Hd & He). rewrite B2R_Bopp in He. exists d. split; [exact Hd|exact He]. }
    destruct ST as [PF (d & Hd & PV)]. split; [exact PF|]. rewrite PV.
    replace (_ - _) with ((1 + d) * (B2R s - S0) + d * (S0 + sgn (x, pl))) by ring.
    eapply Rle_trans; [apply Rabs_triang|]. rewrite !Rabs_mult.
    assert (D1 : Rabs (1 + d) <= 1 + u). { eapply Rle_trans; [apply Rabs_triang|]. rewrite Rabs_R1. lra. }
    assert (B2 : Rabs (S0 + sgn (x, pl)) <= A + Y) by (eapply Rle_trans; [apply Rabs_triang|]; fold Y; lra).
    assert (B3 : Rabs (1 + d) * Rabs (B2R s - S0) <= (1 + u) * (((1 + u) ^ length ps - 1) * A)) by (apply Rmult_le_compat; [apply Rabs_pos..|lra|lra]).
    assert (B4 : Rabs d * Rabs (S0 + sgn (x, pl)) <= u * (A + Y)) by (apply Rmult_le_compat; [apply Rabs_pos..|lra|lra]).
    cbn [Rpow_def.pow]. set (q := (1 + u) ^ length ps) in *. set (E1 := Rabs (1 + d) * _) in *. set (E2 := Rabs d * _) in *.
    assert (0 <= (1 + u) * (q - 1) * Y) by (repeat apply Rmult_le_pos; lra). nra.
Qed.
Lemma signed_sum_err feats vec : Forall finite_number vec -> (forall f b, (f, b) ∈ feats -> is_Some (vec !! Z.to_nat f)) ->
  (Z.of_nat (length feats) <= 2 ^ 50)%Z -> sampled_magnitude feats vec <= 2 ^ 1000 ->
  finite_number (signed_sum feats vec) /\
  Rabs (val (signed_sum feats vec) - exact_signed feats vec) <= gamma (length feats) * sampled_magnitude feats vec.
Proof.
  intros HV HI HN HM.
  assert (P : exists ps : list (bf * bool), Forall2 (fun p q => vec !! Z.to_nat p.1 = @Some float64 (B2SF q.1) /\ p.2 = q.2 /\ is_finite q.1 = true) feats ps).
  { clear -HV HI. induction feats as [|[f b] feats IH]; [by exists []|]. destruct IH as [ps IH]; [intros f' b' H'; apply (HI f' b'); by right|].
    destruct (HI f b) as [x Hx]; [left|]. assert (Fx : finite_number x) by (rewrite Forall_forall in HV; apply HV; by apply elem_of_list_lookup_2 in Hx).
    destruct (finite_B _ Fx) as (y & -> & Fy). exists ((y, b) :: ps). by constructor. }
  destruct P as [ps P].
  assert (LIM : lim = 2 ^ 1000).
  { unfold lim. change 1000%Z with (Z.of_nat (Z.to_nat 1000)). rewrite bpow_powerRZ, <- pow_powerRZ. reflexivity. }
  assert (Q : signed_sum feats vec = B2SF (fold_left addb ps (B754_zero false)) /\
    exact_signed feats vec = sumR (map sgn ps) /\ sampled_magnitude feats vec = sumR (map (fun p => Rabs (sgn p)) ps) /\
    Forall (fun p : bf * bool => is_finite p.1 = true) ps /\ length feats = length ps).
  { unfold signed_sum, exact_signed, sampled_magnitude. change fzero with (B2SF (B754_zero false : bf)) at 1. generalize (B754_zero false : bf). clear -P.
    induction P as [|[f b] [x b'] feats ps (E1 & E2 & F1) P IH]; intros s; [done|]. cbn [fst snd] in *. subst b'. cbn [fold_left map length]. rewrite E1. change (default fzero (@Some float64 (B2SF x))) with (B2SF x).
    rewrite val_B. destruct (IH (addb s (x, b))) as (I1 & I2 & I3 & I4 & I5). unfold addb at 2 in I1. cbn [fst snd] in I1.
    split; [|split; [|split; [|split; [by constructor|by rewrite I5]]]].
    - unfold addb at 2. cbn [fst snd]. destruct b; [rewrite fadd_B|rewrite fsub_B]; exact I1.
    - cbn [sumR fold_right]. unfold sumR in I2. rewrite I2. unfold sgn at 2. cbn [fst snd]. reflexivity.
    - cbn [sumR fold_right]. unfold sumR in I3. rewrite I3. unfold sgn at 2. cbn [fst snd]. destruct b; [done|]. by rewrite Rabs_Ropp. }
  destruct Q as (Q1 & Q2 & Q3 & Q4 & Q5). rewrite Q1, Q2, Q3, Q5, val_B in *. rewrite <- LIM in HM.
  assert (HN1 : (Z.of_nat (S (length ps)) <= 2 ^ 51)%Z) by lia.
  destruct (signed_err ps Q4 HN1 HM) as [IF IE]. split; [by apply B_finite|]. eapply Rle_trans; [exact IE|].
  apply Rmult_le_compat_r; [apply (total_pos sgn)|]. apply pow_gamma1. lia.
Qed.
Lemma sign_pos x : finite_number x -> 0 < val x -> fleb fzero x = true.
Proof.
  intros [_ K]. destruct x as [[]|[]| |[] mm e]; try done; unfold val, SF2R; intros H; try lra.
  exfalso. assert (L : F2R (Float radix2 (Z.neg mm) e) < 0) by (apply F2R_lt_0; reflexivity). exact (Rlt_asym _ _ H L).
Qed.
Lemma sign_neg x : finite_number x -> val x < 0 -> fleb fzero x = false.
Proof.
  intros [_ K]. destruct x as [[]|[]| |[] mm e]; try done; unfold val, SF2R; intros H; try lra.
  exfalso. assert (L : 0 < F2R (Float radix2 (Z.pos mm) e)) by (apply F2R_gt_0; reflexivity). exact (Rlt_asym _ _ H L).
Qed.
Lemma projection_err dim numHashes ratio g t g' vec : (0 <= dim <= 2 ^ 50)%Z -> (1 <= ratio <= 2 ^ 53)%Z -> (0 <= numHashes)%Z ->
  srp_New dim numHashes ratio g = Ok (t, g') -> (dim <= Z.of_nat (length vec))%Z -> Forall finite_number vec ->
  exists hs, srp_GetHash t vec = Ok hs /\ Z.of_nat (length hs) = numHashes /\
    forall i h ind bits, hs !! i = Some h -> srp_indices t !! i = Some ind -> srp_randBits t !! i = Some bits ->
      let feats := zip ind bits in
      sampled_magnitude feats vec <= 2 ^ 1000 ->
      let slack := gamma (length feats) * sampled_magnitude feats vec in
      (slack < exact_signed feats vec -> h = 0%Z) /\ (exact_signed feats vec < - slack -> h = 1%Z).
Proof.
  intros Hd Hr Hn HN Hl HV.
  destruct (srp_negation dim numHashes ratio g t g' vec ltac:(lia) Hr Hn HN Hl) as (hs & hs' & H1 & _ & L1 & _ & HI).
  destruct (srp_new_spec dim numHashes ratio g ltac:(lia) Hr Hn) as (t0 & g0 & HN0 & LI & HF & _).
  rewrite HN in HN0. injection HN0 as <- <-.
  exists hs. split; [exact H1|]. split; [exact L1|]. intros i h ind bits Hh Hi Hb feats HM slack.
  assert (Hlt : (i < length hs)%nat) by (by apply lookup_lt_Some in Hh).
  destruct (HI (Z.of_nat i) ltac:(lia)) as (ind' & bits' & h' & Hi' & Hb' & Hh' & HS & _). rewrite !Nat2Z.id in *.
  rewrite Hi in Hi'. injection Hi' as <-. rewrite Hb in Hb'. injection Hb' as <-. rewrite Hh in Hh'. injection Hh' as <-.
  destruct (HF _ _ Hi) as (HL & _ & HR).
  assert (LF : (Z.of_nat (length feats) <= 2 ^ 50)%Z).
  { unfold feats. rewrite zip_with_length. assert ((dim + ratio - 1) / ratio <= dim)%Z.
    { destruct (decide (dim = 0)%Z) as [->|]; [rewrite Z.div_small; lia|]. apply Z.div_le_upper_bound; nia. } lia. }
  destruct (signed_sum_err feats vec HV) as [F EB]; [|exact LF|exact HM|].
  { intros f b Hf. unfold feats in Hf. apply elem_of_zip_l in Hf. rewrite Forall_forall in HR. apply HR in Hf. apply lookup_lt_is_Some_2. lia. }
  fold feats in HS. fold slack in EB. rewrite HS.
  assert (AB : - slack <= val (signed_sum feats vec) - exact_signed feats vec <= slack) by (by apply Rabs_le_inv).
  split; intros HX; [rewrite sign_pos; [done|done|lra]|rewrite sign_neg; [done|done|lra]].
Qed.

(** * For concrete numbers *)
Lemma val_modest x : match x with S754_zero _ => True | S754_finite _ mm e => (e <= 0)%Z /\ (Z.pos mm <= 2 ^ 53)%Z | _ => False end ->
  Rabs (val x) <= 2 ^ 53.
Proof.
  destruct x as [s|s| |s mm e]; try done; unfold val, SF2R.
  - intros _. rewrite Rabs_R0. apply pow_le. lra.
  - intros [He Hm]. rewrite <- F2R_Zabs. replace (Z.abs (cond_Zopp s (Z.pos mm))) with (Z.pos mm) by (by destruct s).
    unfold F2R. cbn [Fnum Fexp]. apply Rle_trans with (IZR (Z.pos mm) * 1).
    + apply Rmult_le_compat_l; [apply IZR_le; lia|]. change 1 with (bpow radix2 0). by apply bpow_le.
    + rewrite Rmult_1_r. apply IZR_le in Hm. eapply Rle_trans; [exact Hm|]. change (IZR (2 ^ 53)) with 9007199254740992. simpl. lra.
Qed.
Lemma modest_sums : 2 ^ 53 * 2 ^ 53 + 2 ^ 53 * 2 ^ 53 + 2 ^ 53 <= 2 ^ 1000.
Proof. apply Rle_trans with (2 ^ 108); [simpl; lra|]. apply Rle_pow; [lra|]. lia. Qed.

(** ** Decimals *)
Lemma decimal_nearest a b : (0 <= a <= b)%Z -> (1 <= b <= 2 ^ 53)%Z ->
  finite_number (dec a b) /\
  forall y, finite_number y -> Rabs (val (dec a b) - IZR a / IZR b) <= Rabs (val y - IZR a / IZR b).
Proof.
  intros Ha Hb. destruct (BofZ_exact a) as [A1 A2]; [lia|]. destruct (BofZ_exact b) as [B1 B2]; [lia|].
  assert (HbR : 1 <= IZR b) by (apply IZR_le; lia). assert (HaR : 0 <= IZR a <= IZR b) by (split; apply IZR_le; lia).
  assert (Hq : 0 <= IZR a / IZR b <= 1).
  { split; [apply Rmult_le_pos; [lra|left; apply Rinv_0_lt_compat; lra]|]. apply (Rmult_le_reg_r (IZR b)); [lra|].
    unfold Rdiv. rewrite Rmult_assoc, Rinv_l by lra. lra. }
  unfold dec. rewrite !f_of_Z_B, fdiv_B.
  pose proof (Bdiv_correct prec emax _ _ mode_NE (BofZ a) (BofZ b)) as HD. rewrite A1, B1 in HD. specialize (HD ltac:(lra)).
  rewrite Rlt_bool_true in HD.
  2: { apply lim_big. rewrite Rabs_pos_eq by lra. assert (0 <= lim) by apply bpow_ge_0. lra. }
  destruct HD as (HV & HF & _). split; [apply B_finite; rewrite HF; exact A2|].
  intros y Fy. destruct (finite_B y Fy) as (yb & -> & _). rewrite !val_B, HV.
  apply (round_N_pt radix2 fex (fun z => negb (Z.even z)) (IZR a / IZR b)). apply generic_format_B2R.
Qed.
