(** C84: the class a dense network predicts, in exact arithmetic. *)
From Verif.Spec Require Import ScoreSpec ShapeSpec.
From Verif.Proofs Require Import RoundProofs ScaleFloat BoundFloat NetInfer ScoreProofs ScoreExp.
From Verif.Properties Require Import NetProps TrainProps DenseProps.
From Coq Require Import Reals Psatz.
From Flocq Require Import Core.
Local Open Scope Z_scope.

(** * C84 A dense network predicts the class with the best exact score *)
(** If the exact score of class [k] beats every other one by more than twice the rounding error plus [2 d], then [k] is
    the class that is counted, whatever exp is as long as it tells arguments apart that differ by [d]. *)
Theorem C84_class : forall E m c n nv d ks exs cnt n' m',
  live E m c n nv -> dense_prediction n -> network_PredictClass E c n exs m = Ok ((cnt, n'), m') ->
  softmax_last (parameters_of (nv_layers nv)) -> exp_separates (e_exp E) d -> (0 <= d)%R ->
  Forall2 (fun ex k => Forall (fun p => finite_number (iv_value p)) (features ex) /\
    tame (parameters_of (nv_layers nv)) (exact_inputs (features ex)) 0 /\ clear_winner d (parameters_of (nv_layers nv)) (features ex) k) exs ks ->
  cnt = hits exs ks.
Proof. exact winner_predict. Qed.
Print Assumptions C84_class.
(** An accurate exp tells apart arguments that differ by [2^-40]. *)
Theorem C84_exp : forall exp, exp_accurate exp -> exp_separates exp (/ 2 ^ 40)%R.
Proof. exact accurate_separates. Qed.
Print Assumptions C84_exp.
Example C84_exp_ex : exp_accurate rounded_exp.
Proof. exact rounded_accurate. Qed.

Local Open Scope R_scope.
Lemma small_gamma k : (k <= 5)%nat -> 0 <= gamma k <= / 1000 /\ 0 <= INR k * eta_round <= / 1000.
Proof.
  intros H. assert (HK : INR k <= 5) by (rewrite INR_IZR_INZ; apply IZR_le; lia). pose proof (pos_INR k) as P. pose proof u_tiny as U. pose proof u_pos.
  assert (ET : 0 <= eta_round <= / 10000).
  { rewrite eta_half. pose proof eta_pos. assert (eta <= u_round) by (rewrite u_bpow; apply Rle_trans with (bpow radix2 (-53)); [apply bpow_le; lia|change (-53 + 1)%Z with (1 + -53)%Z; rewrite bpow_plus; change (bpow radix2 1) with 2; lra]). lra. }
  split; [|nra]. unfold gamma. assert (T : 0 <= INR k * u_round <= / 10000) by nra. set (t := INR k * u_round) in *.
  split; [apply Rmult_le_pos; [lra|apply Rlt_le, Rinv_0_lt_compat; lra]|].
  apply (Rmult_le_reg_r (1 - t)); [lra|]. unfold Rdiv. rewrite Rmult_assoc, Rinv_l by lra. lra.
Qed.
Lemma score_val z : (Z.abs z <= 3)%Z -> val (f_of_Z z) = IZR z. Proof. intros H. apply val_small. lia. Qed.
Lemma score_fin z : (Z.abs z <= 3)%Z -> finite_number (f_of_Z z). Proof. intros H. apply val_small. lia. Qed.
Lemma rmax_pos x : 0 <= x -> Rmax 0 x = x. Proof. apply Rmax_right. Qed.
Lemma max_le rs b : 0 <= b -> Forall (fun r => r <= b) rs -> fold_right Rmax 0 rs <= b.
Proof. intros B. induction 1 as [|r rs H _ IH]; cbn; [done|]. by apply Rmax_lub. Qed.
Definition in_layer : NodeType * list (NodeType * list float64 * float64) := (ReLU, [(ReLU, [f_of_Z (-1); f_of_Z 0; f_of_Z 1; f_of_Z 2], f_of_Z 1);
           (ReLU, [f_of_Z 3; f_of_Z (-1); f_of_Z 0; f_of_Z 1], f_of_Z 2);
           (ReLU, [f_of_Z 2; f_of_Z 3; f_of_Z (-1); f_of_Z 0], f_of_Z 3)]).
Definition out_layer : NodeType * list (NodeType * list float64 * float64) := (Softmax, [(Softmax, [f_of_Z (-1); f_of_Z 0; f_of_Z 1], f_of_Z 0);
              (Softmax, [f_of_Z 2; f_of_Z 3; f_of_Z (-1)], f_of_Z 1)]).
Ltac abs_lit := repeat match goal with |- context [Rabs ?x] => first [rewrite (Rabs_right x) by lra | rewrite (Rabs_left x) by lra] end.
Local Opaque f_of_Z gamma INR eta_round val fone.
Ltac unroll := cbn; unfold input_weight; change (Z.to_nat 0) with 0%nat; change (Z.to_nat 1) with 1%nat; change (Z.to_nat 2) with 2%nat; change (Z.to_nat 3) with 3%nat; cbn; rewrite ?score_val by lia; rewrite ?val_fone.
Lemma big_1000 x : x <= 1000 -> x <= 2 ^ 1000.
Proof.
  intros H. apply Rle_trans with (2 ^ 10); [simpl; lra|]. apply Rle_pow; [lra|lia].
Qed.
Local Opaque pow.
Ltac each := repeat apply Forall_cons_2; try apply Forall_nil_2.
Ltac same_list := repeat (apply (f_equal2 cons); [apply (f_equal2 pair); [reflexivity|lra]|]); reflexivity.
Ltac err_lit := unfold node_error; unroll; abs_lit;
  pose proof (small_gamma 2 ltac:(lia)); pose proof (small_gamma 3 ltac:(lia)); pose proof (small_gamma 4 ltac:(lia)); pose proof (small_gamma 5 ltac:(lia)); lra.
Lemma in_1 : let xs := exact_inputs [mkPair 0 fone; mkPair 2 fone] in
  exact_layer xs in_layer = [(0%Z, 1); (1%Z, 5); (2%Z, 4)] /\ 0 <= layer_error xs 0 in_layer <= / 100 /\
  Forall (fun nd => exact_size xs nd + gain xs nd * 0 <= 2 ^ 1000) in_layer.2.
Proof.
  intros xs. split; [|split].
  - unfold exact_layer, xs, in_layer. change (seqZ 0 _) with [0%Z; 1%Z; 2%Z]. unroll. rewrite !rmax_pos by lra. same_list.
  - split; [apply max_ge0|]. apply max_le; [lra|]. unfold in_layer, xs. cbn [map snd]. each; err_lit.
  - unfold in_layer, xs. cbn [snd]. each; apply big_1000; unroll; abs_lit; lra.
Qed.
Lemma in_2 : let xs := exact_inputs [mkPair 3 fone] in
  exact_layer xs in_layer = [(0%Z, 3); (1%Z, 3); (2%Z, 3)] /\ 0 <= layer_error xs 0 in_layer <= / 100 /\
  Forall (fun nd => exact_size xs nd + gain xs nd * 0 <= 2 ^ 1000) in_layer.2.
Proof.
  intros xs. split; [|split].
  - unfold exact_layer, xs, in_layer. change (seqZ 0 _) with [0%Z; 1%Z; 2%Z]. unroll. rewrite !rmax_pos by lra. same_list.
  - split; [apply max_ge0|]. apply max_le; [lra|]. unfold in_layer, xs. cbn [map snd]. each; err_lit.
  - unfold in_layer, xs. cbn [snd]. each; apply big_1000; unroll; abs_lit; lra.
Qed.
Lemma out_any a b c e : 0 <= a <= 5 -> 0 <= b <= 5 -> 0 <= c <= 5 -> 0 <= e <= / 100 -> let xs := [(0%Z, a); (1%Z, b); (2%Z, c)] in
  exact_layer xs out_layer = [(0%Z, c - a); (1%Z, 2 * a + 3 * b - c + 1)] /\ 0 <= layer_error xs e out_layer <= / 5 /\
  Forall (fun nd => exact_size xs nd + gain xs nd * e <= 2 ^ 1000) out_layer.2.
Proof.
  intros A B C E xs.
  assert (AB : forall k x, Rabs (IZR k * x) <= Rabs (IZR k) * Rabs x) by (intros; rewrite Rabs_mult; lra).
  assert (AX : Rabs a <= 5 /\ Rabs b <= 5 /\ Rabs c <= 5) by (rewrite !Rabs_right by lra; lra).
  split; [|split].
  - unfold exact_layer, xs, out_layer. change (seqZ 0 _) with [0%Z; 1%Z]. unroll. same_list.
  - split; [apply max_ge0|]. apply max_le; [lra|]. unfold out_layer, xs. cbn [map snd].
    assert (G : forall nd, gain xs nd <= 6 -> exact_size xs nd <= 31 -> 0 <= exact_size xs nd + gain xs nd * e -> node_error xs e nd <= / 5).
    { intros nd G1 G2 G3. unfold node_error. change (length xs + 2)%nat with 5%nat. change (length xs + 1)%nat with 4%nat.
      destruct (small_gamma 5 ltac:(lia)) as [[P1 P2] _]. destruct (small_gamma 4 ltac:(lia)) as [_ [Q1 Q2]].
      assert (gain xs nd * e <= 6 * / 100) by (apply Rle_trans with (6 * e); [apply Rmult_le_compat_r; lra|lra]).
      assert (gamma 5 * (exact_size xs nd + gain xs nd * e) <= / 1000 * (exact_size xs nd + gain xs nd * e)) by (apply Rmult_le_compat_r; lra). lra. }
    each; apply G; unfold xs; unroll; abs_lit; rewrite ?Rabs_mult; abs_lit; nra.
  - unfold out_layer, xs. cbn [snd]. each; apply big_1000; unroll; rewrite ?Rabs_mult; abs_lit; nra.
Qed.
(** The demonstration network right after New: the exact scores are 3 and 14 for the first example and 0 and 13 for
    the second, so that class 1 is predicted twice and one prediction is a hit. *)
Definition score_ps : parameters := [in_layer; out_layer].
Lemma score_node (nd : NodeType * list float64 * float64) : nd ∈ in_layer.2 ++ out_layer.2 -> Forall finite_number nd.1.2 /\ finite_number nd.2.
Proof. intros H. repeat (apply elem_of_cons in H as [->|H]; [split; [cbn [fst snd]; each; apply score_fin; lia|apply score_fin; cbn; lia]|]). by apply elem_of_nil in H. Qed.
Lemma score_tame xs e ys e' : (Z.of_nat (length xs) <= 3)%Z -> exact_layer xs in_layer = ys -> layer_error xs e in_layer = e' -> (Z.of_nat (length ys) <= 3)%Z ->
  Forall (fun nd => exact_size xs nd + gain xs nd * e <= 2 ^ 1000) in_layer.2 -> Forall (fun nd => exact_size ys nd + gain ys nd * e' <= 2 ^ 1000) out_layer.2 ->
  tame score_ps xs e.
Proof.
  intros L1 Y E L2 F1 F2. cbn [tame score_ps]. rewrite Y, E. split; [lia|].
  assert (T : forall l xs e, l = in_layer \/ l = out_layer -> Forall (fun nd => exact_size xs nd + gain xs nd * e <= 2 ^ 1000) l.2 ->
    Forall (fun nd => Forall finite_number nd.1.2 /\ finite_number nd.2 /\ exact_size xs nd + gain xs nd * e <= 2 ^ 1000) l.2).
  { intros l xs0 e0 HL HF. rewrite Forall_forall in HF |- *. intros nd H. destruct (score_node nd) as [A B].
    - apply elem_of_app. destruct HL as [-> | ->]; [by left|by right].
    - split; [done|]. split; [done|]. by apply HF. }
  split; [apply T; [by left|done]|]. split; [lia|]. split; [apply T; [by right|done]|done].
Qed.
Lemma score_clear feats ys e' x0 x1 zs e2 : exact_layer (exact_inputs feats) in_layer = ys -> layer_error (exact_inputs feats) 0 in_layer = e' ->
  exact_layer ys out_layer = zs -> layer_error ys e' out_layer = e2 -> zs = [(0%Z, x0); (1%Z, x1)] -> 0 <= e2 <= / 5 -> 0 <= x1 -> x0 + 4 <= x1 ->
  clear_winner 1 score_ps feats 1.
Proof.
  intros Y E1 Z0 E2 ZZ B X1 X0. unfold clear_winner, scores, score_ps. cbn [fold_left fst snd]. rewrite Y, E1, Z0, E2, ZZ.
  exists x1. split; [right; left|]. split; [lra|]. intros j x H NE. apply elem_of_cons in H as [H|H]; [injection H as -> ->; lra|].
  apply elem_of_list_singleton in H. by injection H as -> ->.
Qed.
Lemma score_ex1 feats a b c : (Z.of_nat (length feats) <= 3)%Z -> exact_layer (exact_inputs feats) in_layer = [(0%Z, a); (1%Z, b); (2%Z, c)] ->
  0 <= a <= 5 -> 0 <= b <= 5 -> 0 <= c <= 5 -> c - a + 4 <= 2 * a + 3 * b - c + 1 -> 0 <= 2 * a + 3 * b - c + 1 ->
  0 <= layer_error (exact_inputs feats) 0 in_layer <= / 100 ->
  Forall (fun nd => exact_size (exact_inputs feats) nd + gain (exact_inputs feats) nd * 0 <= 2 ^ 1000) in_layer.2 ->
  tame score_ps (exact_inputs feats) 0 /\ clear_winner 1 score_ps feats 1.
Proof.
  intros L Y A B C W1 W2 E F. destruct (out_any a b c _ A B C E) as (O1 & O2 & O3). split.
  - eapply score_tame; [unfold exact_inputs; rewrite map_length; done|exact Y|reflexivity|cbn; lia|exact F|exact O3].
  - eapply score_clear; [exact Y|reflexivity|exact O1|reflexivity|reflexivity|exact O2|done|done].
Qed.
Local Open Scope Z_scope.
Example C84_class_ex : exists nv m', live netE net_m 1 net_n nv /\ dense_prediction net_n /\
  network_PredictClass netE 1 net_n net_exs net_m = Ok ((1, net_n), m') /\
  softmax_last (parameters_of (nv_layers nv)) /\ exp_separates (e_exp netE) 1 /\
  Forall2 (fun ex k => Forall (fun p => finite_number (iv_value p)) (features ex) /\
    tame (parameters_of (nv_layers nv)) (exact_inputs (features ex)) 0 /\ clear_winner 1 (parameters_of (nv_layers nv)) (features ex) k) net_exs [1; 1].
Proof.
  pose proof (proj1 C72_ex) as DP.
  assert (PR : match network_PredictClass netE 1 net_n net_exs net_m with Ok ((c, _), _) => c =? 1 | Panic _ => false end = true) by (vm_compute; reflexivity).
  pose proof net_made_Ok as HM. revert HM DP PR. generalize net_n, net_m. intros n m HM DP PR.
  destruct (C66_new netE _ _ _ _ _ _ _ _ _ _ _ _ _ _ eq_refl net_dims HM) as (nv & L & [HN HS] & H).
  destruct (nv_layers nv) as [|lv0 [|lv1 [|]]] eqn:EV; try (cbn in HN; lia).
  destruct (H 0%nat lv0 _ _ _ _ eq_refl eq_refl eq_refl eq_refl eq_refl) as [_ N0].
  destruct (H 1%nat lv1 _ _ _ _ eq_refl eq_refl eq_refl eq_refl eq_refl) as [_ N1].
  assert (T0 : lv_type lv0 = ReLU) by (destruct (HS 0%nat lv0 eq_refl) as (? & ? & ty & ? & ? & ? & _ & _ & HT & _ & _ & _ & S0); injection HT as <-; apply S0).
  assert (T1 : lv_type lv1 = Softmax) by (destruct (HS 1%nat lv1 eq_refl) as (? & ? & ty & ? & ? & ? & _ & _ & HT & _ & _ & _ & S0); injection HT as <-; apply S0).
  assert (PS : parameters_of (nv_layers nv) = score_ps).
  { rewrite EV. cbn [parameters_of map]. rewrite T0, T1, N0, N1. vm_compute. reflexivity. }
  rewrite EV in PS. destruct (network_PredictClass netE 1 n net_exs m) as [[[c n'] m']|] eqn:EP; [|discriminate]. apply Z.eqb_eq in PR as ->.
  destruct (predict_unchanged _ _ _ _ _ _ _ _ _ L EP) as [-> _].
  exists nv, m'. rewrite EV, PS. split; [done|]. split; [done|]. split; [done|]. split; [|split].
  - exists [in_layer], out_layer.2. split; [done|]. by constructor.
  - intros x y Fx Fy _ HL. cbn. rewrite fltb_val by done. apply Raux.Rlt_bool_true. lra.
  - destruct in_1 as (A1 & A2 & A3). destruct in_2 as (B1 & B2 & B3).
    constructor; [|constructor; [|constructor]]; cbn [features ex_features default].
    + split; [each; apply finite_fone|]. eapply score_ex1; [cbn; lia|exact A1|lra..|exact A2|exact A3].
    + split; [each; apply finite_fone|]. eapply score_ex1; [cbn; lia|exact B1|lra..|exact B2|exact B3].
Qed.
