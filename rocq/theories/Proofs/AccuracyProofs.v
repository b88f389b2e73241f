(** The float64 quotient of two counts. *)
From Verif.Spec Require Import AccuracySpec MainSpec.
From Verif.Proofs Require Import FloatReal MemProofs MainProofs.
From Coq Require Import Reals Psatz Lia.
From Flocq Require Import Core BinarySingleNaN.

Local Notation prec := 53%Z.
Local Notation emax := 1024%Z.
Local Notation bf := (binary_float prec emax).

Lemma fleb_B (x y : bf) : is_finite x = true -> is_finite y = true ->
  (B2R x <= B2R y)%R -> fleb (B2SF x) (B2SF y) = true.
Proof.
  intros Hx Hy H. pose proof (Bleb_correct prec emax x y Hx Hy) as HB.
  change (fleb (B2SF x) (B2SF y)) with (Bleb x y). rewrite HB. now apply Rle_bool_true.
Qed.

(** tot/(a*b) computed in float64 from the three ints. *)
Lemma ratio_spec tot a b : (0 < a)%Z -> (0 < b)%Z -> (a * b <= 2^53)%Z -> (0 <= tot <= a * b)%Z ->
  let q := fdiv (f_of_Z tot) (fmul (f_of_Z a) (f_of_Z b)) in
  SF2R radix2 q = round radix2 (SpecFloat.fexp prec emax) ZnearestE (IZR tot / IZR (a * b)) /\
  fleb fzero q = true /\ fleb q fone = true.
Proof.
  intros Ha Hb Hab Ht q.
  assert (Ha' : (a <= 2^53)%Z) by nia. assert (Hb' : (b <= 2^53)%Z) by nia.
  destruct (BofZ_exact tot) as [T1 T2]; [lia|]. destruct (BofZ_exact a) as [A1 A2]; [lia|].
  destruct (BofZ_exact b) as [B1 B2]; [lia|].
  assert (Eq : q = B2SF (Bdiv mode_NE (BofZ tot) (Bmult mode_NE (BofZ a) (BofZ b)))).
  { unfold q. now rewrite !f_of_Z_B, fmul_B, fdiv_B. }
  pose proof (Bmult_correct prec emax _ _ mode_NE (BofZ a) (BofZ b)) as HM.
  rewrite A1, B1, A2, B2, <- mult_IZR in HM. rewrite round_Z in HM by lia.
  rewrite Rlt_bool_true in HM by (apply bpow_1024_big; lia). destruct HM as (M1 & M2 & _). cbn in M2.
  set (p := Bmult mode_NE (BofZ a) (BofZ b)) in *.
  assert (Hp0 : (0 < IZR (a * b))%R) by (apply IZR_lt; lia).
  pose proof (Bdiv_correct prec emax _ _ mode_NE (BofZ tot) p) as HD. rewrite T1, M1 in HD.
  specialize (HD ltac:(lra)).
  assert (Hv0 : (0 <= IZR tot / IZR (a * b))%R).
  { apply Rmult_le_pos; [apply IZR_le; lia|]. left. now apply Rinv_0_lt_compat. }
  assert (Hv1 : (IZR tot / IZR (a * b) <= 1)%R).
  { apply Rmult_le_reg_r with (IZR (a * b)); [lra|]. unfold Rdiv. rewrite Rmult_assoc, Rinv_l by lra.
    rewrite Rmult_1_r, Rmult_1_l. apply IZR_le. lia. }
  set (r := round radix2 (SpecFloat.fexp prec emax) (round_mode mode_NE) (IZR tot / IZR (a * b))) in *.
  assert (Hr0 : (0 <= r)%R).
  { unfold r. change 0%R with (IZR 0). rewrite <- (round_Z 0) by lia.
    apply round_le; [apply fexp_correct; reflexivity|apply valid_rnd_round_mode|exact Hv0]. }
  assert (Hr1 : (r <= 1)%R).
  { unfold r. change 1%R with (IZR 1). rewrite <- (round_Z 1) by lia.
    apply round_le; [apply fexp_correct; reflexivity|apply valid_rnd_round_mode|exact Hv1]. }
  rewrite Rlt_bool_true in HD.
  2:{ rewrite Rabs_pos_eq by lra. apply Rle_lt_trans with 1%R; [lra|]. change 1%R with (bpow radix2 0). apply bpow_lt. lia. }
  destruct HD as (D1 & D2 & _). rewrite T2 in D2.
  set (d := Bdiv mode_NE (BofZ tot) p) in *. rewrite Eq.
  split; [change (SF2R radix2 (B2SF d) = r); rewrite <- D1; now destruct d|].
  split.
  - change fzero with (B2SF (B754_zero false : bf)). apply fleb_B; [reflexivity|exact D2|]. cbn [B2R]. now rewrite D1.
  - assert (Hone : fone = B2SF (BofZ 1)) by (rewrite <- f_of_Z_B; reflexivity).
    rewrite Hone. destruct (BofZ_exact 1) as [O1 O2]; [lia|]. apply fleb_B; [exact D2|exact O2|]. rewrite D1, O1. exact Hr1.
Qed.

Lemma ratio_proportion tot a b : (0 < a)%Z -> (0 < b)%Z -> (a * b <= 2^53)%Z -> (0 <= tot <= a * b)%Z ->
  proportion (fdiv (f_of_Z tot) (fmul (f_of_Z a) (f_of_Z b))) tot (a * b).
Proof. intros. now apply ratio_spec. Qed.

Lemma fadd_B (x y : bf) : fadd (B2SF x) (B2SF y) = B2SF (Bplus mode_NE x y).
Proof.
  destruct x as [sx|sx| |sx mx ex Bx], y as [sy|sy| |sy my ey By]; try reflexivity;
    try (unfold fadd; cbn; destruct (Bool.eqb _ _); reflexivity).
  unfold fadd, SFadd, Bplus. cbn [B2SF]. apply normalize_equiv.
Qed.
Lemma succ_f i : (0 <= i)%Z -> (i + 1 <= 2^53)%Z -> fadd (f_of_Z i) fone = f_of_Z (i + 1).
Proof.
  intros H0 H1. change fone with (f_of_Z 1). rewrite !f_of_Z_B, fadd_B. f_equal.
  destruct (BofZ_exact i) as [A1 A2]; [lia|]. destruct (BofZ_exact 1) as [B1 B2]; [lia|].
  destruct (BofZ_exact (i + 1)) as [C1 C2]; [lia|].
  pose proof (Bplus_correct prec emax _ _ mode_NE (BofZ i) (BofZ 1) A2 B2) as HP.
  rewrite A1, B1, <- plus_IZR in HP. rewrite round_Z in HP by lia.
  rewrite Rlt_bool_true in HP by (apply bpow_1024_big; lia). destruct HP as (P1 & P2 & _).
  assert (Hpos : (0 < IZR (i + 1))%R) by (apply IZR_lt; lia).
  apply B2R_inj.
  - destruct (Bplus _ _ _); try discriminate; [|reflexivity]. cbn in P1. lra.
  - destruct (BofZ (i + 1)); try discriminate; [|reflexivity]. cbn in C1. lra.
  - now rewrite P1, C1.
Qed.

Local Open Scope Z_scope.
Lemma predicts_bounds E c net m bs ks m' : predicts E c net m bs ks m' ->
  Forall2 (fun b k => 0 <= k <= Z.of_nat (length b)) bs ks.
Proof. induction 1 as [|? ? ? ? ? ? ? ? ? Hp ? IH]; constructor; [by eapply predict_bounds|exact IH]. Qed.
Lemma sum_bounds (bs : list (list Example_)) ks : Forall2 (fun b k => 0 <= k <= Z.of_nat (length b)) bs ks ->
  0 <= sumZ ks <= Z.of_nat (length (concat bs)).
Proof.
  induction 1; cbn [sumZ foldr concat]; [cbn; lia|]. rewrite app_length. unfold sumZ in *. lia.
Qed.

Lemma evaluate_trace w cfg c exs nb : let B := c_BatchSize cfg in
  forall k net tot log m net' tot' log' m',
  mfold (fun '(net, tot, log) i =>
      '(correct, net) ← network_PredictClass (settings w cfg) c net (batch B i exs);
      mret (net, tot + correct, log ++ [LogIter i (fdiv (f_of_Z (tot + correct)) (fmul (f_of_Z B) (fadd (f_of_Z i) fone)))]))
    (net, tot, log) (seqZ k (Z.of_nat nb)) m = Ok ((net', tot', log'), m') ->
  exists counts, predicts (settings w cfg) c net m (map (fun i => batch B i exs) (seqZ k (Z.of_nat nb))) counts m' /\
    tot' = tot + sumZ counts /\
    log' = log ++ imap (fun j _ => LogIter (k + Z.of_nat j)
      (fdiv (f_of_Z (tot + sumZ (take (S j) counts))) (fmul (f_of_Z B) (fadd (f_of_Z (k + Z.of_nat j)) fone)))) counts.
Proof.
  intros B. induction nb as [|nb IH]; intros k net tot log m net' tot' log' m'.
  - cbn. intros [= <- <- <- <-]. exists []. split; [constructor|]. cbn. rewrite app_nil_r. split; [lia|done].
  - rewrite seqZ_cons by lia. cbn [mfold].
    replace (Z.pred (Z.of_nat (S nb))) with (Z.of_nat nb) by lia.
    intros ([[n1 t1] l1] & m1 & H1 & H2)%bindM_inv.
    apply bindM_inv in H1 as ([cr n2] & m2 & Hp & H1). injection H1 as <- <- <- <-.
    destruct (IH _ _ _ _ _ _ _ _ _ H2) as (counts & Hc & Ht & Hl). exists (cr :: counts).
    split; [cbn [map]; econstructor; [exact Hp|exact Hc]|]. cbn [sumZ foldr].
    split; [unfold sumZ in *; lia|]. rewrite Hl, <- app_assoc. f_equal. cbn [imap app]. f_equal.
    + cbn [take foldr]. repeat f_equal; try lia; destruct counts; cbn; lia.
    + apply imap_ext. intros j x _. unfold compose. cbn [take foldr].
      replace (k + Z.of_nat (S j)) with (Z.succ k + Z.of_nat j) by lia. unfold sumZ. cbn [foldr].
      do 3 f_equal. lia.
Qed.

(** C62 *)
Lemma evaluate_accuracy w cfg c nb net exs m log m' : let B := c_BatchSize cfg in
  0 < B -> 0 < nb -> nb * B <= 2^53 -> file_delivers w (c_TestData cfg) exs ->
  evaluateSvm w cfg c nb net m = Ok (log, m') ->
  exists counts iters q,
    predicts (settings w cfg) c net m (map (fun i => batch B i exs) (seqZ 0 nb)) counts m' /\
    log = iters ++ [LogOverall q] /\ proportion q (sumZ counts) (nb * B) /\
    length iters = Z.to_nat nb /\
    (forall j, (j < Z.to_nat nb)%nat -> exists a, iters !! j = Some (LogIter (Z.of_nat j) a) /\
       proportion a (sumZ (take (S j) counts)) (B * (Z.of_nat j + 1))) /\
    Forall2 (fun b k => 0 <= k <= Z.of_nat (length b)) (map (fun i => batch B i exs) (seqZ 0 nb)) counts.
Proof.
  intros B HB Hnb Hsmall Hf. rewrite (evaluate_spec _ _ _ _ _ _ _ (Z.lt_le_incl _ _ HB) (Z.lt_le_incl _ _ Hnb) Hf).
  unfold spec_evaluate. intros ([[net' tot] log'] & m1 & Hm & H)%bindM_inv. injection H as <- <-.
  rewrite <- (Z2Nat.id nb) in Hm by lia. apply evaluate_trace in Hm as (counts & Hc & Ht & Hl).
  rewrite Z2Nat.id in Hc by lia. cbn [app] in Hl. rewrite Z.add_0_l in Ht. fold B in Hc.
  pose proof (predicts_bounds _ _ _ _ _ _ _ Hc) as Hb.
  assert (Hlen : length counts = Z.to_nat nb).
  { apply Forall2_length in Hb. rewrite map_length, seqZ_length in Hb. lia. }
  assert (Hpre : forall j, (j <= Z.to_nat nb)%nat -> 0 <= sumZ (take j counts) <= B * Z.of_nat j).
  { intros j Hj.
    assert (Hb2 : Forall (fun k => 0 <= k <= B) counts).
    { apply Forall_forall. intros k Hk. apply elem_of_list_lookup in Hk as (i & Hi).
      destruct (Forall2_lookup_r _ _ _ _ _ Hb Hi) as (b & Hbi & Hk).
      rewrite <- list_fmap_alt in Hbi || idtac.
      apply elem_of_list_lookup_2 in Hbi. apply elem_of_list_In, in_map_iff in Hbi as (i0 & <- & Hin).
      apply elem_of_list_In, elem_of_seqZ in Hin. rewrite batch_length in Hk by lia. lia. }
    clear -Hb2 Hj Hlen. assert (Hj' : (j <= length counts)%nat) by lia. clear Hj Hlen.
    revert j Hj'. induction Hb2 as [|k ks Hk Hks IH]; intros [|j] Hj; cbn [take sumZ foldr length] in *; try lia.
    specialize (IH j ltac:(lia)). unfold sumZ in IH. nia. }
  assert (Htot : 0 <= sumZ counts <= nb * B).
  { pose proof (Hpre (Z.to_nat nb) ltac:(lia)) as HH. rewrite firstn_all2 in HH by lia. nia. }
  eexists counts, log', _. split; [exact Hc|]. split; [done|].
  split; [rewrite Ht; apply ratio_proportion; lia|].
  split; [rewrite Hl; rewrite imap_length; done|].
  split; [|exact Hb].
  intros j Hj. destruct (lookup_lt_is_Some_2 counts j ltac:(lia)) as [x Hx].
  eexists. split; [rewrite Hl, list_lookup_imap, Hx; cbn [fmap option_fmap option_map]; rewrite Z.add_0_l; reflexivity|].
  rewrite Z.add_0_l. rewrite succ_f by nia. apply ratio_proportion; [lia|lia|nia|].
  pose proof (Hpre (S j) ltac:(lia)). nia.
Qed.
