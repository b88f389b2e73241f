(** The difference of two numbers of which the second is not less is not positive; closure of the
    representable numbers under addition and multiplication. *)
From Verif.Proofs Require Import FloatReal.
From Verif.Spec Require Import InferSpec.
From Coq Require Import Reals Psatz.
From Flocq Require Import Core BinarySingleNaN.
Import BinarySingleNaN.
Local Notation prec := 53%Z.
Local Notation emax := 1024%Z.
Local Notation bf := (binary_float prec emax).
Local Notation fex := (SpecFloat.fexp prec emax).

Lemma fadd_B (x y : bf) : fadd (B2SF x) (B2SF y) = B2SF (Bplus mode_NE x y).
Proof.
  destruct x as [sx|sx| |sx mx ex Bx], y as [sy|sy| |sy my ey By]; try reflexivity;
    try (simpl; destruct (Bool.eqb sx sy); reflexivity).
  unfold fadd, SFadd, B2SF at 1 2, Bplus. cbn zeta. apply normalize_equiv.
Qed.
Lemma fsub_B (x y : bf) : fsub (B2SF x) (B2SF y) = B2SF (Bminus mode_NE x y).
Proof.
  destruct x as [sx|sx| |sx mx ex Bx], y as [sy|sy| |sy my ey By]; try reflexivity;
    try (simpl; destruct sx, sy; reflexivity).
  unfold fsub, SFsub, B2SF at 1 2, Bminus. cbn zeta. rewrite <- normalize_equiv. f_equal.
  unfold Fplus_naive. rewrite Z.sub_opp_r || idtac. destruct sy; cbn [negb SpecFloat.cond_Zopp]; lia.
Qed.

Lemma Bsign_nonneg (x : bf) : is_finite x = true -> Bsign x = false -> (0 <= B2R x)%R.
Proof.
  destruct x as [s|s| |s m e H]; try discriminate; simpl; intros _ ->; [lra|]. apply F2R_ge_0. simpl. lia.
Qed.
Lemma Bsign_nonpos (x : bf) : is_finite x = true -> Bsign x = true -> (B2R x <= 0)%R.
Proof.
  destruct x as [s|s| |s m e H]; try discriminate; simpl; intros _ ->; [lra|]. apply F2R_le_0. simpl. lia.
Qed.

Lemma Bminus_not_pos (x y : bf) : SFltb (B2SF y) (B2SF x) = false ->
  SFltb (S754_zero false) (B2SF (Bminus mode_NE x y)) = false.
Proof.
  intros H. destruct (is_finite x) eqn:Fx; [destruct (is_finite y) eqn:Fy|].
  - assert (Hle : (B2R x <= B2R y)%R).
    { change (Bltb y x = false) in H. rewrite Bltb_correct in H by assumption. revert H. case Rlt_bool_spec; [discriminate|]. intros; assumption. }
    pose proof (Bminus_correct prec emax _ _ mode_NE x y Fx Fy) as HC. revert HC. case Rlt_bool_spec.
    + intros _ (HR & HF & _). change (Bltb (B754_zero false) (Bminus mode_NE x y) = false).
      rewrite Bltb_correct by (reflexivity || assumption). apply Rlt_bool_false. rewrite HR. simpl.
      rewrite <- (round_0 radix2 fex (round_mode mode_NE)). apply round_le; [apply (fexp_correct prec emax); reflexivity|apply valid_rnd_round_mode|lra].
    + intros Hov (HS & Hsg). rewrite HS. destruct (Bsign x) eqn:Sx; [reflexivity|].
      exfalso. assert (Sy : Bsign y = true) by (destruct (Bsign y); [reflexivity|discriminate]).
      pose proof (Bsign_nonneg x Fx Sx). pose proof (Bsign_nonpos y Fy Sy).
      replace (B2R x - B2R y)%R with 0%R in Hov by lra. rewrite round_0, Rabs_R0 in Hov by apply valid_rnd_round_mode.
      pose proof (bpow_gt_0 radix2 emax). lra.
  - destruct y as [sy|sy| |sy my ey By]; try discriminate; destruct x as [sx|sx| |sx mx ex Bx]; try discriminate; try reflexivity;
      destruct sy; try reflexivity; try discriminate; destruct sx; discriminate.
  - destruct x as [sx|sx| |sx mx ex Bx]; try discriminate; [|reflexivity].
    destruct y as [sy|sy| |sy my ey By]; destruct sx; try reflexivity; try discriminate; destruct sy; try reflexivity; discriminate.
Qed.

Lemma representable_B x : representable x <-> exists b : bf, x = B2SF b.
Proof.
  split; [intros H; exists (SF2B x H); symmetry; apply B2SF_SF2B|intros [b ->]; apply valid_binary_B2SF].
Qed.
Lemma fadd_representable x y : representable x -> representable y -> representable (fadd x y).
Proof. rewrite !representable_B. intros [a ->] [b ->]. exists (Bplus mode_NE a b). apply fadd_B. Qed.
Lemma fmul_representable x y : representable x -> representable y -> representable (fmul x y).
Proof. rewrite !representable_B. intros [a ->] [b ->]. exists (Bmult mode_NE a b). apply fmul_B. Qed.
Lemma fsub_not_pos x y : representable x -> representable y -> fltb y x = false -> fltb fzero (fsub x y) = false.
Proof. rewrite !representable_B. intros [a ->] [b ->] H. rewrite fsub_B. now apply Bminus_not_pos. Qed.
