(** Property C78: weighted sums and random projections are accurate up to rounding (packages node and
    sparse_random_projection). *)
From Coq Require Import Reals Lra.
From Verif.Model Require Import Srp.
From Verif.Spec Require Import NodeSpec BatchSpec SrpSpec RoundSpec.
From Verif.Proofs Require Import RoundProofs.
From Verif.Properties Require Import NodeProps SrpProps.
Local Open Scope Z_scope.

(** With finite weights, bias and inputs of which no sum is huge, GetActivation does not overflow; what it returns
    differs from the exact weighted sum (cut at 0 for ReLU) by at most as many roundings as there are operations in a
    row, relative to the sum of the absolute values. *)
Theorem C78_activation : forall m c n ly v data i a n' m',
  rep m c n ly v -> ly_ok ly -> node_GetActivation c n data i m = Ok ((a, n'), m') ->
  Forall finite_number (v_w v) -> finite_number (v_bias v) -> Forall (fun p => finite_number (iv_value p)) data ->
  Z.of_nat (length data) <= 2 ^ 50 -> (magnitude (v_w v) (v_bias v) data <= 2 ^ 1000)%R ->
  finite_number a /\
  (Rabs (val a - activation_of (v_type v) (exact_sum (v_w v) (v_bias v) data)) <=
     gamma (length data + 2) * magnitude (v_w v) (v_bias v) data + INR (length data + 1) * eta_round)%R.
Proof. exact activation_err. Qed.
Print Assumptions C78_activation.

Example C78_activation_ex : exists n' m',
  let data := [mkPair 0 (f_of_Z 3); mkPair 1 (fneg half)] in
  rep (exmem true) 1 2 (exlay 2 true) (exv true 2) /\ ly_ok (exlay 2 true) /\
  node_GetActivation 1 2 data 0 (exmem true) = Ok ((f_of_Z 10, n'), m') /\
  Forall finite_number (v_w (exv true 2)) /\ finite_number (v_bias (exv true 2)) /\ Forall (fun p => finite_number (iv_value p)) data /\
  (magnitude (v_w (exv true 2)) (v_bias (exv true 2)) data <= 2 ^ 1000)%R.
Proof.
  eexists _, _. cbv zeta. split; [apply (sit_rep _ _ _ _ _ _ _ _ _ (exsituated true))|].
  split; [apply (sit_ok _ _ _ _ _ _ _ _ _ (exsituated true))|].
  split; [vm_compute; reflexivity|]. split; [repeat constructor; vm_compute; reflexivity|]. split; [repeat constructor; vm_compute; reflexivity|].
  split; [repeat constructor; vm_compute; reflexivity|].
  eapply Rle_trans; [|exact modest_sums]. unfold magnitude. cbn [map sumR fold_right].
  assert (M : forall x, match x with S754_zero _ => True | S754_finite _ mm e => e <= 0 /\ Z.pos mm <= 2 ^ 53 | _ => False end ->
    (0 <= Rabs (val x) <= 2 ^ 53)%R) by (intros x Hx; split; [apply Rabs_pos|by apply val_modest]).
  rewrite !Rabs_mult. cbn [iv_value].
  pose proof (M (weight_for (v_w (exv true 2)) (mkPair 0 (f_of_Z 3))) ltac:(vm_compute; split; discriminate)) as M1.
  pose proof (M (weight_for (v_w (exv true 2)) (mkPair 1 (fneg half))) ltac:(vm_compute; split; discriminate)) as M2.
  pose proof (M (f_of_Z 3) ltac:(vm_compute; split; discriminate)) as M3.
  pose proof (M (fneg half) ltac:(vm_compute; split; discriminate)) as M4.
  pose proof (M (v_bias (exv true 2)) ltac:(vm_compute; split; discriminate)) as M5.
  assert (MM : forall a b c d : R, (0 <= a <= c -> 0 <= b <= d -> a * b <= c * d)%R) by (intros; apply Rmult_le_compat; lra).
  pose proof (MM _ _ _ _ M1 M3). pose proof (MM _ _ _ _ M2 M4). lra.
Qed.

(** A hash bit of a sparse random projection is the sign of the exact signed sum of the sampled features, unless that
    sum is within rounding of 0. *)
Theorem C78_projection : forall dim numHashes ratio g t g' vec, 0 <= dim <= 2 ^ 50 -> 1 <= ratio <= 2 ^ 53 -> 0 <= numHashes ->
  srp_New dim numHashes ratio g = Ok (t, g') -> dim <= Z.of_nat (length vec) -> Forall finite_number vec ->
  exists hs, srp_GetHash t vec = Ok hs /\ Z.of_nat (length hs) = numHashes /\
    forall i h ind bits, hs !! i = Some h -> srp_indices t !! i = Some ind -> srp_randBits t !! i = Some bits ->
      let feats := zip ind bits in
      (sampled_magnitude feats vec <= 2 ^ 1000)%R ->
      let slack := (gamma (length feats) * sampled_magnitude feats vec)%R in
      ((slack < exact_signed feats vec)%R -> h = 0) /\ ((exact_signed feats vec < - slack)%R -> h = 1).
Proof. exact projection_err. Qed.
Print Assumptions C78_projection.

Definition proj_vec : list float64 := [fone; f_of_Z 3; f_of_Z 5; fzero].
Example C78_projection_ex :
  ('(t, _) ← srp_New 4 3 2 gs; Ok (srp_indices t, srp_randBits t)) = Ok ([[0; 1]; [2; 3]; [0; 1]], [[true; false]; [false; true]; [true; false]]) /\
  Forall finite_number proj_vec /\ (sampled_magnitude (zip [2; 3]%Z [false; true]) proj_vec <= 2 ^ 1000)%R.
Proof.
  split; [vm_compute; reflexivity|]. split; [repeat constructor; vm_compute; reflexivity|].
  eapply Rle_trans; [|exact modest_sums]. unfold sampled_magnitude. cbn [zip zip_with map sumR fold_right].
  assert (E2 : default fzero (proj_vec !! Z.to_nat 2) = f_of_Z 5) by (vm_compute; reflexivity).
  assert (E3 : default fzero (proj_vec !! Z.to_nat 3) = fzero) by (vm_compute; reflexivity).
  rewrite E2, E3.
  assert (M1 : (Rabs (val (f_of_Z 5)) <= 2 ^ 53)%R) by (apply val_modest; vm_compute; split; discriminate).
  assert (M2 : (Rabs (val fzero) <= 2 ^ 53)%R) by (apply val_modest; vm_compute; exact I).
  assert (M3 : (1 <= 2 ^ 53)%R) by (apply pow_R1_Rle; lra).
  assert (M4 : (2 ^ 53 * 1 <= 2 ^ 53 * 2 ^ 53)%R) by (apply Rmult_le_compat_l; lra).
  revert M1 M2 M3 M4. generalize (2 ^ 53)%R. intros; lra.
Qed.

(** The decimal constants (0.9, 0.999, 0.1, 0.001, 1e-8, 1e-7, which the specifications write [dec a b]) are the
    binary64 numbers nearest to the decimals. *)
Theorem C78_decimals : forall a b, 0 <= a <= b -> 1 <= b <= 2 ^ 53 ->
  finite_number (dec a b) /\
  forall y, finite_number y -> (Rabs (val (dec a b) - IZR a / IZR b) <= Rabs (val y - IZR a / IZR b))%R.
Proof. exact decimal_nearest. Qed.
Print Assumptions C78_decimals.

Example C78_decimals_ex : finite_number (dec 9 10) /\ finite_number (dec 1 (10 ^ 8)) /\ finite_number fone /\
  dec 9 10 = S754_finite false 8106479329266893 (-53).
Proof. repeat split; vm_compute; reflexivity. Qed.
