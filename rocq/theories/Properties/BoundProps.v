(** Property C80: with Adam no number overflows (package network). *)
From Verif.Spec Require Import LayerSpec BoundSpec.
From Verif.Proofs Require Import FloatReal RoundProofs BoundFloat BoundProofs.
From Verif.Properties Require Import NetProps RangeProps.
From Coq Require Import Reals Psatz.
From Flocq Require Import Core.
Local Open Scope Z_scope.

(** * C80 With Adam no number becomes infinite or NaN *)
(** After any calls on a network whose last layer is a softmax layer, as long as sizes, number of calls and feature values
    stay below (very large) limits: every weight and bias is a number below a bound that grows with the number of
    training calls only, all moments are numbers, and so is every output and error computed on the way. *)
Theorem C80_finite : forall E c num sizes types batch lr inputDim k l rp sparsity m n m' os n' m'' width examples calls w0 X,
  e_LoadWeight E = false -> e_UseAdam E = true -> dims_ok E num sizes batch inputDim -> 1 <= batch -> 1 <= num ->
  types !! (Z.to_nat num - 1)%nat = Some Softmax -> exp_ok E -> training_within E num sizes lr m os width examples calls w0 X ->
  network_New E c num sizes types batch lr inputDim k l rp sparsity m = Ok (n, m') ->
  call_ops E c n os m' = Ok (n', m'') ->
  exists nv nv' pss, live E m' c n nv /\ live E m'' c n nv' /\ history E batch sparsity lr nv os pss nv' /\
    Forall (fun lv => Forall (node_within (weight_bound w0 calls)) (lv_nodes lv)) (nv_layers nv') /\ Forall (Forall pass_finite) pss.
Proof. exact bound_calls. Qed.
Print Assumptions C80_finite.
(** One more training call moves no weight and no bias by more than 8 learning rates (and the rounding of one sum),
    whatever the examples are. *)
Theorem C80_step : forall E c num sizes types batch lr inputDim k l rp sparsity m n m' os n' m'' exs iter rehash rebuild ins n'' m3 width examples calls w0 X,
  e_LoadWeight E = false -> e_UseAdam E = true -> dims_ok E num sizes batch inputDim -> 1 <= batch -> 1 <= num ->
  types !! (Z.to_nat num - 1)%nat = Some Softmax -> exp_ok E -> training_within E num sizes lr m (os ++ [OpTrain exs iter rehash rebuild]) width examples calls w0 X ->
  network_New E c num sizes types batch lr inputDim k l rp sparsity m = Ok (n, m') ->
  call_ops E c n os m' = Ok (n', m'') ->
  network_ProcessInput E c n exs iter rehash rebuild m'' = Ok ((ins, n''), m3) ->
  exists nv nv', live E m'' c n nv /\ live E m3 c n nv' /\
    forall j lv lv' i v v', nv_layers nv !! j = Some lv -> nv_layers nv' !! j = Some lv' -> lv_nodes lv !! i = Some v -> lv_nodes lv' !! i = Some v' ->
      Forall2 (moved_by (learning_rate E lr iter)) (v_w v) (v_w v') /\ moved_by (learning_rate E lr iter) (v_bias v) (v_bias v').
Proof. exact bound_step. Qed.
Print Assumptions C80_step.

(** The limits are far from real networks: a million inputs or nodes per layer, 4096 examples per call, ten million
    calls, five layers, draws and features below a million. *)
Example C80_ex_size : (4 * INR (4 * 1024) * INR (1000 * 1000) * 1000000 * growth (1000 * 1000) 1000000 (10 * (1000 * 1000)) ^ 5 <= 2 ^ 500)%R.
Proof.
  unfold growth, weight_bound. rewrite !mult_INR. set (a := INR 1000). assert (Ha : (a = 1000)%R) by (unfold a; rewrite INR_IZR_INZ; reflexivity).
  set (b := INR 1024). assert (Hb : (b = 1024)%R) by (unfold b; rewrite INR_IZR_INZ; reflexivity). rewrite Ha, Hb. clear.
  rewrite (INR_IZR_INZ 4), (INR_IZR_INZ 10). rewrite <- !mult_IZR, <- !plus_IZR, <- !mult_IZR, !pow_IZR, <- !mult_IZR. apply IZR_le. vm_compute. discriminate.
Qed.
Lemma val_53 m : (val (S754_finite false m (-53)) = IZR (Zpos m) / 9007199254740992)%R.
Proof. reflexivity. Qed.
(** A crude exponential that meets the assumption, and a training that runs. *)
Example C80_ex : exp_ok rangeE /\ training_within rangeE 2 [3; 2] net_half net0 net_ops 4 2 2 300 1 /\ range_train = Ok tt /\ dims_ok rangeE 2 [3; 2] 2 4.
Proof.
  assert (F1 : finite_number net_half /\ val net_half = (/ 2)%R).
  { split; [split; vm_compute; done|]. assert (H : net_half = S754_finite false 4503599627370496 (-53)) by (vm_compute; reflexivity). rewrite H, val_53. lra. }
  split; [|split; [|split; [|apply C73_ex]]].
  - intros x _ Hx. cbn [e_exp rangeE]. rewrite Hx. destruct F1 as [? ->]. split; [done|lra].
  - assert (HL : forall iter, learning_rate rangeE net_half iter = S754_finite false 6369051672525773 (-53)).
    { intros iter. vm_compute. reflexivity. }
    assert (HR : forall iter, at_most 1 (learning_rate rangeE net_half iter) /\ (/ 2 ^ 1000 <= val (learning_rate rangeE net_half iter))%R).
    { intros iter. rewrite HL. rewrite val_53. split; [split; [split; [vm_compute; reflexivity|exact I]|]|].
      - rewrite val_53. rewrite Rabs_pos_eq; lra.
      - assert (H : (2 ^ 1 <= 2 ^ 1000)%R) by (apply Rle_pow; [lra|lia]). rewrite pow_1 in H. apply Rle_trans with (/ 2)%R; [apply Rinv_le_contravar; [lra|exact H]|lra]. }
    assert (HZ : forall z, 0 <= z + 100 <= 400 -> at_most 300 (f_of_Z z)).
    { intros z Hz. rewrite f_of_Z_B. destruct (BofZ_exact z ltac:(lia)) as [V F]. split; [apply B_finite; done|]. rewrite val_B, V, <- abs_IZR. apply IZR_le. lia. }
    assert (HV : at_most 1 fone).
    { split; [split; [vm_compute; reflexivity|exact I]|]. rewrite val_fone, Rabs_R1. lra. }
    assert (HE : Forall (fun ex => (length (features ex) <= 4)%nat /\ Forall (fun p => at_most 1 (iv_value p)) (features ex)) net_exs).
    { apply Forall_cons. split; [|apply Forall_cons; split; [|apply Forall_nil; exact I]].
      - split; [cbn; lia|]. apply Forall_cons. split; [exact HV|]. apply Forall_cons. split; [exact HV|]. apply Forall_nil. exact I.
      - split; [cbn; lia|]. apply Forall_cons. split; [exact HV|]. apply Forall_nil. exact I. }
    assert (HC : forall iter rehash rebuild, call_within rangeE net_half 4 2 1 (OpTrain net_exs iter rehash rebuild)).
    { intros iter rehash rebuild. split; [cbn; lia|]. split; [exact HE|]. exact (HR iter). }
    apply mkTrainingWithin.
    + lra.
    + intros i. cbn [net0 m_norm]. apply HZ. pose proof (Z.mod_pos_bound (Z.of_nat i) 5). lia.
    + intros j size Hj Hs. destruct j as [|[|j]]; [..|lia]; injection Hs as <-; lia.
    + lra.
    + lia.
    + lia.
    + apply Forall_cons. split; [apply HC|]. apply Forall_cons. split; [exact I|]. apply Forall_cons. split; [apply HC|]. apply Forall_nil. exact I.
    + cbn. lia.
    + lia.
    + lia.
    + unfold growth, weight_bound. rewrite (INR_IZR_INZ 4), (INR_IZR_INZ 2). rewrite <- !mult_IZR, <- !plus_IZR, <- !mult_IZR, !pow_IZR, <- !mult_IZR. apply IZR_le. vm_compute. discriminate.
  - apply C73_ex.
Qed.
