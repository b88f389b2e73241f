(** Sums, quotients and differences of numbers between 0 and 1; closure of the representable numbers. *)
From Verif.Proofs Require Import FloatReal FloatSub AccuracyProofs.
From Verif.Spec Require Import RangeSpec.
From Coq Require Import Reals Psatz.
From Flocq Require Import Core BinarySingleNaN.
Import BinarySingleNaN.
Local Notation prec := 53%Z.
Local Notation emax := 1024%Z.
Local Notation bf := (binary_float prec emax).
Local Notation fex := (SpecFloat.fexp prec emax).
Local Notation rnd := (round radix2 fex (round_mode mode_NE)).

(** ** Closure *)
Lemma fsqrt_B (x : bf) : fsqrt (B2SF x) = B2SF (Bsqrt mode_NE x).
Proof.
  destruct x as [s|[|]| |[|] m e H]; try reflexivity.
  simpl. rewrite B2SF_SF2B. unfold fsqrt, SFsqrt. destruct (SFsqrt_core_binary _ _ _ _) as [[a b] c].
  apply round_aux_equiv.
Qed.
Lemma fneg_B (x : bf) : fneg (B2SF x) = B2SF (Bopp x).
Proof. now destruct x. Qed.
Lemma fsub_representable x y : representable x -> representable y -> representable (fsub x y).
Proof. rewrite !representable_B. intros [a ->] [b ->]. exists (Bminus mode_NE a b). apply fsub_B. Qed.
Lemma fdiv_representable x y : representable x -> representable y -> representable (fdiv x y).
Proof. rewrite !representable_B. intros [a ->] [b ->]. exists (Bdiv mode_NE a b). apply fdiv_B. Qed.
Lemma fsqrt_representable x : representable x -> representable (fsqrt x).
Proof. rewrite !representable_B. intros [a ->]. exists (Bsqrt mode_NE a). apply fsqrt_B. Qed.
Lemma fneg_representable x : representable x -> representable (fneg x).
Proof. rewrite !representable_B. intros [a ->]. exists (Bopp a). apply fneg_B. Qed.
Lemma f_of_Z_representable z : representable (f_of_Z z).
Proof. rewrite representable_B. exists (BofZ z). apply f_of_Z_B. Qed.

(** ** Rounding *)
Lemma rnd_le x y : (x <= y)%R -> (rnd x <= rnd y)%R.
Proof. apply round_le; [apply (fexp_correct prec emax); reflexivity|apply valid_rnd_round_mode]. Qed.
Lemma rnd_0 : rnd 0 = 0%R. Proof. apply round_0, valid_rnd_round_mode. Qed.
Lemma rnd_B (x : bf) : rnd (B2R x) = B2R x.
Proof. apply round_generic; [apply valid_rnd_round_mode|apply generic_format_B2R]. Qed.
Lemma rnd_1 : rnd 1 = 1%R.
Proof. apply round_generic; [apply valid_rnd_round_mode|]. apply (format_Z 1). lia. Qed.
Lemma rnd_m1 : rnd (-1) = (-1)%R.
Proof. apply round_generic; [apply valid_rnd_round_mode|]. apply (format_Z (-1)). lia. Qed.
Lemma big_1 : (1 < bpow radix2 emax)%R. Proof. apply (bpow_lt radix2 0 emax). lia. Qed.

(** ** Extended order *)
(** [x] is finite with a value in [[a,b]]; [x] is finite and at least [r], or +infinity. *)
Definition inside (a b : R) (x : bf) : Prop := is_finite x = true /\ (a <= B2R x <= b)%R.
Definition above (r : R) (x : bf) : Prop := x = B754_infinity false \/ (is_finite x = true /\ (r <= B2R x)%R).

Lemma fone_val : exists o : bf, fone = B2SF o /\ B2R o = 1%R /\ is_finite o = true.
Proof. exists (BofZ 1). destruct (BofZ_exact 1) as [A B]; [lia|]. split; [apply f_of_Z_B|]. split; assumption. Qed.
Lemma fmone_val : exists o : bf, fmone = B2SF o /\ B2R o = (-1)%R /\ is_finite o = true.
Proof.
  destruct fone_val as (o & H1 & H2 & H3). exists (Bopp o). unfold fmone. rewrite H1, fneg_B, B2R_Bopp, H2, is_finite_Bopp.
  split; [reflexivity|]. split; [reflexivity|assumption].
Qed.
Lemma fzero_val : exists o : bf, fzero = B2SF o /\ B2R o = 0%R /\ is_finite o = true.
Proof. exists (B754_zero false). repeat split. Qed.

Lemma within_inside a b (oa ob x : bf) : a = B2SF oa -> b = B2SF ob -> is_finite oa = true -> is_finite ob = true ->
  within a b (B2SF x) <-> x = B754_nan \/ inside (B2R oa) (B2R ob) x.
Proof.
  intros -> -> Fa Fb. unfold within, inside. destruct (is_finite x) eqn:Fx.
  - assert (N : Float64.is_nan (B2SF x) = false) by (destruct x; try discriminate; reflexivity).
    change (fleb (B2SF oa) (B2SF x)) with (Bleb oa x). change (fleb (B2SF x) (B2SF ob)) with (Bleb x ob).
    rewrite !Bleb_correct by assumption. rewrite N. split.
    + intros [H|[H1 H2]]; [discriminate|]. right. split; [reflexivity|].
      revert H1 H2. case Rle_bool_spec; [|discriminate]. case Rle_bool_spec; [|discriminate]. intros; split; assumption.
    + intros [->|[_ [H1 H2]]]; [discriminate|]. right. split; apply Rle_bool_true; assumption.
  - destruct x as [s|s| |s m e H]; try discriminate; split.
    + intros [H|[H1 H2]]; [discriminate|]. exfalso. destruct s; destruct oa as [[]|[]| |[]], ob as [[]|[]| |[]]; discriminate.
    + intros [H|[H _]]; discriminate.
    + intros _. left. reflexivity.
    + intros _. left. reflexivity.
Qed.
Lemma within_unit (x : bf) : within fzero fone (B2SF x) <-> x = B754_nan \/ inside 0 1 x.
Proof. destruct fzero_val as (z & Z1 & Z2 & Z3), fone_val as (o & O1 & O2 & O3). rewrite (within_inside _ _ z o) by assumption. now rewrite Z2, O2. Qed.
Lemma within_neg (x : bf) : within fmone fzero (B2SF x) <-> x = B754_nan \/ inside (-1) 0 x.
Proof. destruct fzero_val as (z & Z1 & Z2 & Z3), fmone_val as (o & O1 & O2 & O3). rewrite (within_inside _ _ o z) by assumption. now rewrite Z2, O2. Qed.
Lemma within_all (x : bf) : within fmone fone (B2SF x) <-> x = B754_nan \/ inside (-1) 1 x.
Proof. destruct fone_val as (z & Z1 & Z2 & Z3), fmone_val as (o & O1 & O2 & O3). rewrite (within_inside _ _ o z) by assumption. now rewrite Z2, O2. Qed.

(** ** Sums *)
Lemma plus_above (x y : bf) r : above 0 x -> above 0 y -> (above r x \/ above r y) -> above r (Bplus mode_NE x y) /\ above 0 (Bplus mode_NE x y).
Proof.
  intros HX HY HR.
  destruct HX as [->|[Fx X]].
  { destruct HY as [->|[Fy _]]; [split; left; reflexivity|]. destruct y; try discriminate; split; left; reflexivity. }
  destruct HY as [->|[Fy Y]]. { destruct x; try discriminate; split; left; reflexivity. }
  assert (HR' : (r <= B2R x \/ r <= B2R y)%R).
  { destruct HR as [[->|[_ H]]|[->|[_ H]]]; [discriminate|left; assumption|discriminate|right; assumption]. }
  pose proof (Bplus_correct prec emax _ _ mode_NE x y Fx Fy) as HC. revert HC. case Rlt_bool_spec.
  - intros _ (HV & HF & _).
    assert (Hx : (B2R x <= rnd (B2R x + B2R y))%R) by (rewrite <- (rnd_B x) at 1; apply rnd_le; lra).
    assert (Hy : (B2R y <= rnd (B2R x + B2R y))%R) by (rewrite <- (rnd_B y) at 1; apply rnd_le; lra).
    split; right; (split; [assumption|]); rewrite HV; lra.
  - intros Hov (HS & Hsg).
    assert (Sx : Bsign x = false).
    { destruct (Bsign x) eqn:Sx; [|reflexivity]. exfalso. pose proof (Bsign_nonpos x Fx Sx). pose proof (Bsign_nonpos y Fy (eq_sym Hsg)).
      replace (B2R x + B2R y)%R with 0%R in Hov by lra. rewrite rnd_0, Rabs_R0 in Hov. pose proof (bpow_gt_0 radix2 emax). lra. }
    rewrite Sx in HS. destruct (Bplus mode_NE x y) as [s|[|]| |s m e H]; try discriminate. split; left; reflexivity.
Qed.
Lemma above_le r s x : (r <= s)%R -> above s x -> above r x.
Proof. intros H [->|[F L]]; [left; reflexivity|right; split; [assumption|lra]]. Qed.
Lemma inside_above a b x : inside a b x -> above a x. Proof. intros [F [H _]]. right. split; assumption. Qed.

(** ** Quotients *)
Lemma div_inside (x d : bf) : is_finite x = true -> (0 <= B2R x)%R -> above (B2R x) d -> above 0 d -> (B2R d <> 0 \/ d = B754_infinity false)%R -> inside 0 1 (Bdiv mode_NE x d).
Proof.
  intros Fx X HD _ HN. destruct HD as [->|[Fd D]].
  { destruct x; try discriminate; split; simpl; try reflexivity; lra. }
  assert (Dn : B2R d <> 0%R) by (destruct HN as [H| ->]; [exact H|discriminate]).
  assert (Q : (0 <= B2R x / B2R d <= 1)%R).
  { assert (0 < B2R d)%R by lra. split; [apply Rmult_le_pos; [lra|left; now apply Rinv_0_lt_compat]|].
    apply Rmult_le_reg_r with (B2R d); [lra|]. unfold Rdiv. rewrite Rmult_assoc, Rinv_l by lra. lra. }
  pose proof (rnd_le 0 (B2R x / B2R d) ltac:(lra)) as Q0. rewrite rnd_0 in Q0.
  pose proof (rnd_le (B2R x / B2R d) 1 ltac:(lra)) as Q1. rewrite rnd_1 in Q1.
  pose proof (Bdiv_correct prec emax _ _ mode_NE x d Dn) as HC. rewrite Rlt_bool_true in HC.
  - destruct HC as (HV & HF & _). split; [now rewrite HF|]. rewrite HV. split; assumption.
  - rewrite Rabs_pos_eq by lra. pose proof big_1. lra.
Qed.
Lemma div_neg_inside (x d : bf) : is_finite x = true -> (0 <= B2R x)%R -> above (B2R x) d -> (B2R d <> 0 \/ d = B754_infinity false)%R -> inside (-1) 0 (Bdiv mode_NE (Bopp x) d).
Proof.
  intros Fx X HD HN. destruct HD as [->|[Fd D]].
  { destruct x; try discriminate; split; simpl; try reflexivity; lra. }
  assert (Dn : B2R d <> 0%R) by (destruct HN as [H| ->]; [exact H|discriminate]).
  assert (Q : (0 <= B2R x / B2R d <= 1)%R).
  { assert (0 < B2R d)%R by lra. split; [apply Rmult_le_pos; [lra|left; now apply Rinv_0_lt_compat]|].
    apply Rmult_le_reg_r with (B2R d); [lra|]. unfold Rdiv. rewrite Rmult_assoc, Rinv_l by lra. lra. }
  assert (E : (B2R (Bopp x) / B2R d = - (B2R x / B2R d))%R) by (rewrite B2R_Bopp; unfold Rdiv; ring).
  pose proof (rnd_le (- (B2R x / B2R d)) 0 ltac:(lra)) as Q0. rewrite rnd_0 in Q0.
  pose proof (rnd_le (-1) (- (B2R x / B2R d)) ltac:(lra)) as Q1. rewrite rnd_m1 in Q1.
  pose proof (Bdiv_correct prec emax _ _ mode_NE (Bopp x) d Dn) as HC. rewrite E, Rlt_bool_true in HC.
  - destruct HC as (HV & HF & _). rewrite is_finite_Bopp in HF. split; [now rewrite HF|]. rewrite HV. split; assumption.
  - rewrite Rabs_left1 by lra. pose proof big_1. lra.
Qed.
(** A smaller numerator and a greater denominator. *)
Lemma div_mono (x y d d' : bf) : is_finite x = true -> is_finite y = true -> (0 <= B2R x <= B2R y)%R -> (B2R y <= 1)%R ->
  above 1 d -> above 1 d' -> (d' = B754_infinity false \/ (is_finite d = true /\ is_finite d' = true /\ (B2R d <= B2R d')%R)) ->
  (B2R (Bdiv mode_NE x d') <= B2R (Bdiv mode_NE y d))%R.
Proof.
  intros Fx Fy [X XY] Y HD HD' HO.
  assert (I : inside 0 1 (Bdiv mode_NE y d)).
  { apply div_inside; [assumption|lra|now apply above_le with 1%R|apply above_le with 1%R; [lra|assumption]|].
    destruct HD as [->|[F D]]; [right; reflexivity|left; lra]. }
  destruct HO as [->|(F & F' & D)].
  { replace (B2R (Bdiv mode_NE x (B754_infinity false))) with 0%R; [apply I|]. destruct x; try discriminate; reflexivity. }
  destruct HD as [->|[_ D1]]; [discriminate|]. destruct HD' as [->|[_ D1']]; [discriminate|].
  assert (Q : (0 <= B2R x / B2R d' <= B2R y / B2R d)%R).
  { split; [apply Rmult_le_pos; [lra|left; apply Rinv_0_lt_compat; lra]|]. unfold Rdiv.
    apply Rmult_le_compat; [lra|left; apply Rinv_0_lt_compat; lra|lra|]. apply Rinv_le_contravar; lra. }
  assert (Q1 : (B2R y / B2R d <= 1)%R).
  { apply Rmult_le_reg_r with (B2R d); [lra|]. unfold Rdiv. rewrite Rmult_assoc, Rinv_l by lra. lra. }
  pose proof (rnd_le _ _ (proj1 Q)) as R0. rewrite rnd_0 in R0. pose proof (rnd_le _ _ (proj2 Q)) as R1. pose proof (rnd_le _ _ Q1) as R2. rewrite rnd_1 in R2.
  pose proof (Bdiv_correct prec emax _ _ mode_NE x d' ltac:(lra)) as HC. rewrite Rlt_bool_true in HC by (rewrite Rabs_pos_eq by lra; pose proof big_1; lra).
  pose proof (Bdiv_correct prec emax _ _ mode_NE y d ltac:(lra)) as HC'. rewrite Rlt_bool_true in HC' by (rewrite Rabs_pos_eq by lra; pose proof big_1; lra).
  destruct HC as (-> & _). destruct HC' as (-> & _). exact R1.
Qed.
(** ** Differences *)
Lemma minus_inside (x y : bf) : inside 0 1 x -> inside 0 1 y -> inside (-1) 1 (Bminus mode_NE x y) /\ ((B2R y <= B2R x)%R -> inside 0 1 (Bminus mode_NE x y)).
Proof.
  intros [Fx X] [Fy Y]. pose proof (rnd_le (-1) (B2R x - B2R y) ltac:(lra)) as R0. rewrite rnd_m1 in R0.
  pose proof (rnd_le (B2R x - B2R y) 1 ltac:(lra)) as R1. rewrite rnd_1 in R1.
  pose proof (Bminus_correct prec emax _ _ mode_NE x y Fx Fy) as HC. rewrite Rlt_bool_true in HC.
  - destruct HC as (HV & HF & _). split; [split; [assumption|rewrite HV; split; assumption]|].
    intros H. split; [assumption|]. rewrite HV. split; [|assumption]. rewrite <- rnd_0. apply rnd_le. lra.
  - apply Rle_lt_trans with 1%R; [apply Rabs_le; split; assumption|apply big_1].
Qed.
(** ** Integers *)
Lemma BofZ_above z : (1 <= z)%Z -> above 1 (BofZ z).
Proof.
  intros Hz. pose proof (binary_normalize_correct prec emax _ _ mode_NE z 0 false) as HC. cbv zeta in HC.
  assert (HF : F2R (Float radix2 z 0) = IZR z) by (unfold F2R; simpl; ring). rewrite HF in HC.
  assert (H1 : (1 <= IZR z)%R) by (apply (IZR_le 1); assumption). revert HC. case Rlt_bool_spec.
  - intros _ (HV & HFi & _). right. split; [assumption|]. unfold BofZ. rewrite HV. rewrite <- rnd_1. now apply rnd_le.
  - intros _ HS. left. rewrite Rlt_bool_false in HS by lra. unfold BofZ. simpl in HS.
    destruct (binary_normalize _ _ _ _ _ _ _ _) as [s|[|]| |s m e H]; try discriminate. reflexivity.
Qed.
Lemma BofZ_mono z z' : (1 <= z)%Z -> (z <= z')%Z -> BofZ z' = B754_infinity false \/ (is_finite (BofZ z) = true /\ is_finite (BofZ z') = true /\ (B2R (BofZ z) <= B2R (BofZ z'))%R).
Proof.
  intros Hz Hz'. pose proof (binary_normalize_correct prec emax _ _ mode_NE z 0 false) as HC. cbv zeta in HC.
  pose proof (binary_normalize_correct prec emax _ _ mode_NE z' 0 false) as HC'. cbv zeta in HC'.
  assert (HF : forall q, F2R (Float radix2 q 0) = IZR q) by (intros q; unfold F2R; simpl; ring). rewrite HF in HC, HC'.
  assert (H1 : (1 <= IZR z)%R) by (apply (IZR_le 1); assumption).
  assert (H2 : (IZR z <= IZR z')%R) by (apply IZR_le; assumption).
  pose proof (rnd_le _ _ H2) as R2. pose proof (rnd_le _ _ H1) as R1. rewrite rnd_1 in R1.
  destruct (BofZ_above z') as [H|[F' _]]; [lia|left; exact H|]. right. revert HC'. case Rlt_bool_spec.
  - intros Hb (HV' & _). rewrite Rlt_bool_true in HC by (rewrite Rabs_pos_eq in * by lra; lra). destruct HC as (HV & HFi & _).
    split; [exact HFi|]. split; [exact F'|]. unfold BofZ. rewrite HV, HV'. exact R2.
  - intros _ HS. exfalso. rewrite Rlt_bool_false in HS by lra. unfold BofZ in F'. simpl in HS.
    clear -F' HS. revert F' HS. generalize (binary_normalize prec emax Hprec53 Hmax1024 mode_NE z' 0 false). intros b F' HS. destruct b as [s|s| |s m e H]; try discriminate F'; simpl in HS; discriminate HS.
Qed.
