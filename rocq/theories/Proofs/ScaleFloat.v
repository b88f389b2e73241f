(** Exact scaling of the input: order is kept, and signed sums scale with powers of two. *)
From Verif.Model Require Import Srp.
From Verif.Spec Require Import BatchSpec SrpSpec RoundSpec ScaleSpec.
From Verif.Proofs Require Import FloatReal FloatSub FloatRange BaseProofs SrpProofs RoundProofs.
From Coq Require Import Reals Psatz.
From Flocq Require Import Core BinarySingleNaN Plus_error.
Import BinarySingleNaN.
Local Notation prec := 53%Z.
Local Notation emax := 1024%Z.
Local Notation bf := (binary_float prec emax).
Local Notation fex := (SpecFloat.fexp prec emax).
Local Notation rnd := (round radix2 fex (round_mode mode_NE)).
Local Notation rndx := (round radix2 (FLX_exp prec) (round_mode mode_NE)).
Local Open Scope R_scope.

Lemma fltb_val x y : finite_number x -> finite_number y -> fltb x y = Rlt_bool (val x) (val y).
Proof.
  intros Hx Hy. destruct (finite_B _ Hx) as (bx & -> & Fx). destruct (finite_B _ Hy) as (by_ & -> & Fy).
  rewrite !val_B. unfold fltb. exact (Bltb_correct prec emax bx by_ Fx Fy).
Qed.

Lemma scaled_order c xs ys : 0 < c -> scaled_by c xs ys -> same_order xs ys.
Proof.
  intros Hc H. split; [by eapply Forall2_length|]. intros a b x y x' y' H1 H2 H3 H4.
  destruct (Forall2_lookup_lr _ _ _ _ _ _ H H1 H3) as (F1 & F2 & E1).
  destruct (Forall2_lookup_lr _ _ _ _ _ _ H H2 H4) as (F3 & F4 & E2).
  rewrite !fltb_val by done. rewrite E1, E2.
  destruct (Rlt_bool_spec (val x) (val y)) as [L|L]; symmetry; [apply Rlt_bool_true|apply Rlt_bool_false]; nra.
Qed.

(** Addition does not underflow, so it rounds as if there were no least exponent. *)
Lemma rnd_flx (x y : R) : generic_format radix2 fex x -> generic_format radix2 fex y -> rnd (x + y) = rndx (x + y).
Proof.
  intros Hx Hy. destruct (Rle_or_lt (Rabs (x + y)) (bpow radix2 (prec + -1074))) as [L|L].
  - assert (F : generic_format radix2 (FLT_exp (-1074) prec) (x + y)) by (by apply FLT_format_plus_small).
    rewrite round_generic; [|typeclasses eauto|exact F]. rewrite round_generic; [done|typeclasses eauto|].
    by apply (generic_format_FLX_FLT radix2 (-1074)).
  - apply (round_FLT_FLX radix2 (-1074)). eapply Rle_trans; [|left; exact L]. apply bpow_le. lia.
Qed.
Lemma rndx_scale x k : rndx (bpow radix2 k * x) = bpow radix2 k * rndx x.
Proof.
  destruct (Req_dec x 0) as [->|Hx]; [by rewrite Rmult_0_r, round_0, Rmult_0_r by typeclasses eauto|].
  unfold round. assert (C : cexp radix2 (FLX_exp prec) (bpow radix2 k * x) = (cexp radix2 (FLX_exp prec) x + k)%Z).
  { unfold cexp, FLX_exp. rewrite Rmult_comm, mag_mult_bpow by done. lia. }
  assert (M : scaled_mantissa radix2 (FLX_exp prec) (bpow radix2 k * x) = scaled_mantissa radix2 (FLX_exp prec) x).
  { unfold scaled_mantissa. rewrite C. rewrite Z.opp_add_distr, bpow_plus, bpow_opp. rewrite (bpow_opp _ k).
    assert (bpow radix2 k <> 0) by (apply Rgt_not_eq, bpow_gt_0). assert (bpow radix2 (cexp radix2 (FLX_exp prec) x) <> 0) by (apply Rgt_not_eq, bpow_gt_0).
    field. by split. }
  rewrite M, C. unfold F2R. cbn [Fnum Fexp]. rewrite bpow_plus. ring.
Qed.

Definition scaled_b (k : Z) (p q : bf * bool) : Prop :=
  is_finite p.1 = true /\ is_finite q.1 = true /\ p.2 = q.2 /\ B2R q.1 = bpow radix2 k * B2R p.1.
Lemma fold_scale k ps qs : Forall2 (scaled_b k) ps qs ->
  (Z.of_nat (S (length ps)) <= 2 ^ 51)%Z ->
  sumR (map (fun p => Rabs (sgn p)) ps) <= lim -> sumR (map (fun p => Rabs (sgn p)) qs) <= lim ->
  B2R (fold_left addb qs (B754_zero false)) = bpow radix2 k * B2R (fold_left addb ps (B754_zero false)).
Proof.
  intros H. assert (D : exists n, length ps = n) by eauto. destruct D as [n D]. revert ps qs H D.
  induction n as [|n IH]; intros ps qs H D HN H1 H2.
  - destruct ps; [|done]. apply Forall2_nil_inv_l in H. subst qs. cbn. ring.
  - destruct ps as [|[x b] ps _] using rev_ind; [done|]. rewrite app_length in D. cbn [length] in D.
    apply Forall2_app_inv_l in H as (qs1 & qs2 & HA & HB & ->).
    apply Forall2_cons_inv_l in HB as ([y b'] & qs3 & (Fx & Fy & Eb & Exy) & HB & ->). apply Forall2_nil_inv_l in HB as ->. cbn [fst snd] in *. subst b'.
    rewrite !map_app in *. cbn [map] in *. rewrite !sumR_snoc in *.
    assert (FA : Forall (fun p : bf * bool => is_finite p.1 = true) ps).
    { clear -HA. induction HA as [|? ? ? ? (F & _)]; by constructor. }
    assert (FB : Forall (fun p : bf * bool => is_finite p.1 = true) qs1).
    { clear -HA. induction HA as [|? ? ? ? (_ & F & _)]; by constructor. }
    pose proof (Rabs_pos (sgn (x, b))) as P1. pose proof (Rabs_pos (sgn (y, b))) as P2.
    pose proof (Forall2_length _ _ _ HA) as HLq. rewrite app_length in HN. cbn [length] in HN.
    destruct (signed_err ps FA) as [IF1 IE1]; [lia|lra|]. destruct (signed_err qs1 FB) as [IF2 IE2]; [lia|lra|].
    specialize (IH ps qs1 HA). rewrite !fold_left_app. cbn [fold_left].
    assert (EV : B2R (fold_left addb qs1 (B754_zero false)) = bpow radix2 k * B2R (fold_left addb ps (B754_zero false))) by (apply IH; [lia|lia|lra|lra]).
    assert (BND : forall (zs : list (bf * bool)) z, length zs = length ps -> is_finite (fold_left addb zs (B754_zero false)) = true ->
       Rabs (B2R (fold_left addb zs (B754_zero false)) - sumR (map sgn zs)) <= ((1 + u_round) ^ length zs - 1) * sumR (map (fun p => Rabs (sgn p)) zs) ->
       sumR (map (fun p => Rabs (sgn p)) zs) + Rabs z <= lim -> Rabs (B2R (fold_left addb zs (B754_zero false)) + z) <= 4 * lim + 4).
    { clear -HN. intros zs z L F E B. pose proof (total_abs sgn zs) as TA. pose proof (total_pos sgn zs) as TP. cbn beta in TA, TP.
      assert (HN1 : (Z.of_nat (length zs) <= 2 ^ 51)%Z) by lia. pose proof (pow_small _ HN1) as Q1. pose proof (pow_ge (length zs)) as Q2.
      pose proof (Rabs_pos z). set (A := sumR (map (fun x : bf * bool => Rabs (sgn x)) zs)) in *. set (S0 := sumR (map sgn zs)) in *.
      replace (_ + z) with ((B2R (fold_left addb zs (B754_zero false)) - S0) + S0 + z) by ring.
      eapply Rle_trans; [apply Rabs_triang|]. assert (Rabs (B2R (fold_left addb zs (B754_zero false)) - S0 + S0) <= 2 * A).
      { eapply Rle_trans; [apply Rabs_triang|]. nra. } lra. }
    pose proof (BND ps (sgn (x, b)) eq_refl IF1 IE1 ltac:(lra)) as B1. pose proof (BND qs1 (sgn (y, b)) (eq_sym HLq) IF2 IE2 ltac:(lra)) as B2.
    set (s := fold_left addb ps (B754_zero false)) in *. set (t := fold_left addb qs1 (B754_zero false)) in *.
    unfold addb, sgn in *. cbn [fst snd] in *. destruct b.
    + destruct (plus_fin s x IF1 Fx B1) as [_ V1]. destruct (plus_fin t y IF2 Fy B2) as [_ V2]. rewrite V1, V2.
      rewrite !rnd_flx by apply generic_format_B2R. rewrite <- rndx_scale. f_equal. rewrite EV, Exy. ring.
    + destruct (minus_fin s x IF1 Fx B1) as [_ V1]. destruct (minus_fin t y IF2 Fy B2) as [_ V2]. rewrite V1, V2. unfold Rminus.
      rewrite !rnd_flx by (try apply generic_format_opp; apply generic_format_B2R). rewrite <- rndx_scale. f_equal. rewrite EV, Exy. ring.
Qed.

Lemma sign_val x : finite_number x -> fgeb x fzero = negb (Rlt_bool (val x) 0).
Proof.
  intros [_ K]. destruct x as [s|[]| |[] mm e]; try done; unfold val, SF2R.
  - rewrite Rlt_bool_false by lra. by destruct s.
  - rewrite Rlt_bool_true; [done|]. apply F2R_lt_0. reflexivity.
  - rewrite Rlt_bool_false; [done|]. left. apply F2R_gt_0. reflexivity.
Qed.

Lemma magnitude_small feats vec : Forall (fun x => Rabs (val x) <= 2 ^ 900) vec -> (Z.of_nat (length feats) <= 2 ^ 50)%Z ->
  sampled_magnitude feats vec <= 2 ^ 1000.
Proof.
  intros HV HN. assert (E : sampled_magnitude feats vec <= INR (length feats) * 2 ^ 900).
  { clear HN. unfold sampled_magnitude. induction feats as [|[f b] feats IH]; [simpl; lra|].
    change (length ((f, b) :: feats)) with (S (length feats)). rewrite S_INR. cbn [map sumR fold_right] in *.
    assert (Rabs (val (default fzero (vec !! Z.to_nat f))) <= 2 ^ 900).
    { destruct (vec !! Z.to_nat f) as [x|] eqn:X; simpl default.
      - rewrite Forall_forall in HV. apply HV. by apply elem_of_list_lookup_2 in X.
      - change (val fzero) with 0. rewrite Rabs_R0. apply pow_le. lra. }
    unfold sumR in IH. eapply Rle_trans; [apply Rplus_le_compat; [exact H|exact IH]|]. apply Req_le. ring. }
  eapply Rle_trans; [exact E|]. assert (INR (length feats) <= 2 ^ 50).
  { rewrite INR_IZR_INZ, pow_IZR. apply IZR_le. change (Z.of_nat 50) with 50%Z. lia. }
  assert (0 <= 2 ^ 900) by (apply pow_le; lra).
  eapply Rle_trans; [apply Rmult_le_compat_r; [done|exact H]|]. rewrite <- pow_add. apply Rle_pow; [lra|lia].
Qed.
Lemma signed_sum_scale k feats vec vec' : scaled_by (bpow radix2 k) vec vec' ->
  (forall f b, (f, b) ∈ feats -> is_Some (vec !! Z.to_nat f)) -> (Z.of_nat (length feats) <= 2 ^ 50)%Z ->
  sampled_magnitude feats vec <= 2 ^ 1000 -> sampled_magnitude feats vec' <= 2 ^ 1000 ->
  val (signed_sum feats vec') = bpow radix2 k * val (signed_sum feats vec).
Proof.
  intros HS HI HN H1 H2.
  assert (LIM : lim = 2 ^ 1000).
  { unfold lim. change 1000%Z with (Z.of_nat (Z.to_nat 1000)). rewrite bpow_powerRZ, <- pow_powerRZ. reflexivity. }
  assert (P : exists ps qs : list (bf * bool), Forall2 (scaled_b k) ps qs /\
     Forall2 (fun p q => vec !! Z.to_nat p.1 = @Some float64 (B2SF q.1) /\ p.2 = q.2) feats ps /\
     Forall2 (fun p q => vec' !! Z.to_nat p.1 = @Some float64 (B2SF q.1) /\ p.2 = q.2) feats qs).
  { clear -HS HI. induction feats as [|[f b] feats IH]; [by exists [], []|].
    destruct IH as (ps & qs & I1 & I2 & I3); [intros f' b' H'; apply (HI f' b'); by right|].
    destruct (HI f b) as [x Hx]; [left|]. destruct (Forall2_lookup_l _ _ _ _ _ HS Hx) as (y & Hy & Fx & Fy & EV).
    destruct (finite_B _ Fx) as (x1 & -> & Fx1). destruct (finite_B _ Fy) as (y1 & -> & Fy1). rewrite !val_B in EV.
    exists ((x1, b) :: ps), ((y1, b) :: qs). split; [by constructor|]. split; by constructor. }
  destruct P as (ps & qs & P1 & P2 & P3).
  assert (Q : forall v rs, Forall2 (fun p (q : bf * bool) => v !! Z.to_nat p.1 = @Some float64 (B2SF q.1) /\ p.2 = q.2) feats rs ->
    signed_sum feats v = B2SF (fold_left addb rs (B754_zero false)) /\ sampled_magnitude feats v = sumR (map (fun p => Rabs (sgn p)) rs) /\ length feats = length rs).
  { clear. intros v rs P. unfold signed_sum, sampled_magnitude. change fzero with (B2SF (B754_zero false : bf)) at 1. generalize (B754_zero false : bf).
    induction P as [|[f b] [x b'] feats ps (E1 & E2) P IH]; intros s; [done|]. cbn [fst snd] in *. subst b'. cbn [fold_left map length]. rewrite E1. change (default fzero (@Some float64 (B2SF x))) with (B2SF x).
    rewrite val_B. destruct (IH (addb s (x, b))) as (I1 & I3 & I5). unfold addb at 2 in I1. cbn [fst snd] in I1.
    split; [|split; [|by rewrite I5]].
    - unfold addb at 2. cbn [fst snd]. destruct b; [rewrite fadd_B|rewrite fsub_B]; exact I1.
    - cbn [sumR fold_right]. unfold sumR in I3. rewrite I3. unfold sgn at 2. cbn [fst snd]. destruct b; [done|]. by rewrite Rabs_Ropp. }
  destruct (Q _ _ P2) as (A1 & A2 & A3). destruct (Q _ _ P3) as (B1 & B2 & B3).
  rewrite A1, B1, !val_B. rewrite A2, <- LIM in H1. rewrite B2, <- LIM in H2. apply fold_scale; [done|lia|done|done].
Qed.
Lemma srp_scale dim numHashes ratio g t g' k vec vec' : (0 <= dim <= 2 ^ 50)%Z -> (1 <= ratio <= 2 ^ 53)%Z -> (0 <= numHashes)%Z ->
  srp_New dim numHashes ratio g = Ok (t, g') -> (dim <= Z.of_nat (length vec))%Z ->
  scaled_by (powerRZ 2 k) vec vec' -> Forall (fun x => Rabs (val x) <= 2 ^ 900) (vec ++ vec') ->
  exists hs, srp_GetHash t vec = Ok hs /\ srp_GetHash t vec' = Ok hs /\ Z.of_nat (length hs) = numHashes.
Proof.
  intros Hd Hr Hn HN Hl HS HV. change 2 with (IZR radix2) in HS at 1. rewrite <- bpow_powerRZ in HS. apply Forall_app in HV as [HV HV'].
  pose proof (Forall2_length _ _ _ HS) as HL0.
  destruct (srp_negation dim numHashes ratio g t g' vec ltac:(lia) Hr Hn HN Hl) as (hs & hsn & H1 & _ & L1 & _ & HI).
  destruct (srp_negation dim numHashes ratio g t g' vec' ltac:(lia) Hr Hn HN ltac:(rewrite <- HL0; exact Hl)) as (hs' & hsn' & H1' & _ & L1' & _ & HI').
  destruct (srp_new_spec dim numHashes ratio g ltac:(lia) Hr Hn) as (t0 & g0 & HN0 & LI & HF & _).
  rewrite HN in HN0. injection HN0 as <- <-.
  exists hs. split; [done|]. split; [|done]. rewrite H1'. f_equal. apply list_eq_same_length with (length hs); [lia|lia|].
  intros i x y Hi Hx Hy. destruct (HI (Z.of_nat i) ltac:(lia)) as (ind & bits & h & E1 & E2 & E3 & E4 & _). rewrite !Nat2Z.id in *.
  destruct (HI' (Z.of_nat i) ltac:(lia)) as (ind' & bits' & h' & E1' & E2' & E3' & E4' & _). rewrite !Nat2Z.id in *.
  rewrite E1 in E1'. injection E1' as <-. rewrite E2 in E2'. injection E2' as <-.
  rewrite Hx in E3'. injection E3' as ->. rewrite Hy in E3. injection E3 as ->. rewrite E4, E4'. clear E4 E4'.
  set (feats := zip ind bits).
  destruct (HF _ _ E1) as (HLi & _ & HR).
  assert (LF : (Z.of_nat (length feats) <= 2 ^ 50)%Z).
  { unfold feats. rewrite zip_with_length. assert ((dim + ratio - 1) / ratio <= dim)%Z.
    { destruct (decide (dim = 0)%Z) as [->|]; [rewrite Z.div_small; lia|]. apply Z.div_le_upper_bound; nia. } lia. }
  assert (HIN : forall (v : list float64) f b, length v = length vec -> (f, b) ∈ feats -> is_Some (v !! Z.to_nat f)).
  { intros v f b Hv Hf. unfold feats in Hf. apply elem_of_zip_l in Hf. rewrite Forall_forall in HR. apply HR in Hf. apply lookup_lt_is_Some_2. lia. }
  assert (FV : Forall finite_number vec) by (clear -HS; induction HS as [|? ? ? ? (F & _)]; by constructor).
  assert (FV' : Forall finite_number vec') by (clear -HS; induction HS as [|? ? ? ? (_ & F & _)]; by constructor).
  pose proof (magnitude_small feats vec HV LF) as M1. pose proof (magnitude_small feats vec' HV' LF) as M2.
  destruct (signed_sum_err feats vec FV) as [F1 _]; [intros f b; by apply HIN|done|done|].
  destruct (signed_sum_err feats vec' FV') as [F2 _]; [intros f b; by apply HIN|done|done|].
  pose proof (signed_sum_scale k feats vec vec' HS (fun f b => HIN vec f b eq_refl) LF M1 M2) as EV.
  change (fleb fzero (signed_sum feats vec)) with (fgeb (signed_sum feats vec) fzero).
  change (fleb fzero (signed_sum feats vec')) with (fgeb (signed_sum feats vec') fzero).
  rewrite !sign_val by done. rewrite EV. pose proof (bpow_gt_0 radix2 k).
  destruct (Rlt_bool_spec (val (signed_sum feats vec)) 0) as [L|L]; [rewrite Rlt_bool_true by nra|rewrite Rlt_bool_false by nra]; done.
Qed.
Lemma val_small z : (Z.abs z <= 2 ^ 53)%Z -> val (f_of_Z z) = IZR z /\ finite_number (f_of_Z z).
Proof. intros H. rewrite f_of_Z_B. destruct (BofZ_exact z H) as [A B]. split; [rewrite val_B; first [exact A|exact B]|apply B_finite; first [exact A|exact B]]. Qed.
Lemma eligible_above xs ys : Forall (fun x => fltb (f_of_Z (- 2^63)) x = true) (xs ++ ys) -> same_eligible xs ys.
Proof.
  rewrite Forall_forall. intros H a x y Hx Hy. rewrite !H; [done|apply elem_of_app; right|apply elem_of_app; left]; by eapply elem_of_list_lookup_2.
Qed.
From Verif.Model Require Import Wta Dwta Minhash.
From Verif.Proofs Require Import WtaProofs ScaleProofs.
Lemma hashes_scale (c : R) xs ys : (0 < c)%R -> scaled_by c xs ys ->
  (forall m binIds topK, mn_GetHashEasyDense m binIds xs [] topK = mn_GetHashEasyDense m binIds ys [] topK) /\
  (Forall (fun x => fltb (f_of_Z (- 2^63)) x = true) (xs ++ ys) ->
     (forall t, wta_GetHashDense t xs = wta_GetHashDense t ys) /\
     (forall dw topK, dwta_GetHashEasy dw xs topK = dwta_GetHashEasy dw ys topK)).
Proof.
  intros Hc HS. pose proof (scaled_order _ _ _ Hc HS) as HO. split.
  - intros m b k. apply minhash_order; [apply HO|]. by rewrite !app_nil_r.
  - intros HE%eligible_above. split; [|intros dw k; by apply dwta_dense_order].
    intros t. apply wta_order_only; [apply HO|apply HO|exact HE].
Qed.
