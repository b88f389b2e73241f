(** The code's plain step may raise the loss however small the rate is. *)
From Coq Require Import Reals Lra.
From Verif.Spec Require Import TrainSpec BatchSpec GradSpec DescentSpec.
From Verif.Proofs Require Import GradReal DescentProofs DescentSteps.
Local Open Scope R_scope.

(** One hidden node without inputs, three outputs. *)
Definition three (b v0 v1 v2 b0 b1 b2 : R) : list (list (unit_ RA)) :=
  [[(0%Z, [], b)]; [(0%Z, [v0], b0); (1%Z, [v1], b1); (2%Z, [v2], b2)]].
Lemma one_in h v b i : net_input RA [(0%Z, h)] (i, [v], b) = v * h + b.
Proof. rewrite pre_R. unfold weight. cbn [map fst snd u_w u_b]. rewrite sum_cons, sum_nil. change (default (zero RA) ([v] !! Z.to_nat 0)) with v. refine (_ : @eq R _ _). ring. Qed.
Lemma hidden_three b : 0 < b -> relu_layer RA [(0%Z, [], b)] [] = [(0%Z, b)].
Proof.
  intros B. rewrite hidden_R. unfold relus, pres. cbn [map fst snd u_id]. rewrite pre_R. cbn [map u_b snd]. rewrite sum_nil. change (num RA) with R. rewrite Rplus_0_l. unfold reluR. destruct (Rlt_dec b 0); [lra|done].
Qed.
Lemma three_ids : labels_on [0%Z] [0%Z; 1%Z; 2%Z].
Proof.
  split; [|split; [apply NoDup_singleton|split; [done|]]].
  - repeat (apply NoDup_cons; split; [rewrite ?elem_of_cons, ?elem_of_nil; lia|]). apply NoDup_nil_2.
  - intros t Ht. apply elem_of_list_singleton in Ht as ->. left.
Qed.
Lemma three_loss b v0 v1 v2 b0 b1 b2 : 0 < b ->
  loss [0%Z] [] (three b v0 v1 v2 b0 b1 b2) = ln (exp (v0 * b + b0) + (exp (v1 * b + b1) + (exp (v2 * b + b2) + 0))) - (v0 * b + b0).
Proof.
  intros B. unfold loss. change (logits (three b v0 v1 v2 b0 b1 b2) []) with
    (let cur := relu_layer RA [(0%Z, [], b)] [] in
     [(0%Z, net_input RA cur (0%Z, [v0], b0)); (1%Z, net_input RA cur (1%Z, [v1], b1)); (2%Z, net_input RA cur (2%Z, [v2], b2))]).
  cbv zeta. rewrite hidden_three by done. rewrite !one_in. rewrite ce_R by exact three_ids. unfold Zs. cbn [map fst snd]. f_equal.
  rewrite !sum_cons, sum_nil. rewrite bool_decide_true by left. rewrite !bool_decide_false by (rewrite elem_of_list_singleton; lia).
  cbn [length]. change (INR 1) with 1. lra.
Qed.
Definition bad_net : list (list (unit_ RA)) := three (9 / 10) 0 20 (-20) 0 (-20) 20.
Definition bZ : R := exp 0 + (exp (-2) + (exp 2 + 0)).
Definition bd (k : nat) : R := match k with O => 1 - exp 0 / bZ | 1%nat => 0 - exp (-2) / bZ | _ => 0 - exp 2 / bZ end.
Definition bzs : list (Z * R) := [(0%Z, 0); (1%Z, -2); (2%Z, 2)].
Lemma bad_back : backward RA 1 [0%Z] bad_net [] = [[bd 1 * 20 + bd 2 * -20]; [bd 0; bd 1; bd 2]].
Proof.
  unfold bad_net, three. set (l2 := [(0%Z, [0], 0); (1%Z, [20], -20); (2%Z, [-20], 20)] : list (unit_ RA)).
  assert (P2 : pres l2 [(0%Z, 9 / 10)] = bzs).
  { unfold pres, l2, bzs. cbn [map u_id fst]. rewrite !one_in. repeat f_equal; lra. }
  assert (B2 : backward RA 1 [0%Z] [l2] [(0%Z, 9 / 10)] = [[bd 0; bd 1; bd 2]]).
  { rewrite backward_R, P2. f_equal. unfold bzs at 2. cbn [map]. unfold errfn. rewrite !(out_error_R 1 [0%Z] bzs) by done. cbn [fst snd].
    rewrite bool_decide_true by left. rewrite !bool_decide_false by (rewrite elem_of_list_singleton; lia). cbn [length]. change (INR 1) with 1. rewrite Rinv_1.
    change (Zs bzs) with bZ. assert (Q : forall x, x / IZR 1 = x) by (intros; unfold Rdiv; rewrite Rinv_1; ring). rewrite !Q. reflexivity. }
  change (backward RA 1 [0%Z] [[(0%Z, [], 9 / 10)]; l2] []) with
    (map (back_error RA (zip l2 (default [] (head (backward RA 1 [0%Z] [l2] (relu_layer RA [(0%Z, [], 9 / 10)] [])))))) (relu_layer RA [(0%Z, [], 9 / 10)] [])
     :: backward RA 1 [0%Z] [l2] (relu_layer RA [(0%Z, [], 9 / 10)] [])).
  rewrite hidden_three by lra. rewrite B2. cbn [map head default zip zip_with l2]. f_equal. f_equal.
  unfold back_error. cbn [le zero reals snd]. destruct (Rle_dec (9 / 10) 0); [lra|].
  change (0 + bd 0 * 0 + bd 1 * 20 + bd 2 * -20 = bd 1 * 20 + bd 2 * -20). ring.
Qed.
Lemma bad_code lr : code_net [0%Z] [] bad_net lr =
  three (9 / 10 + (lr + (bd 1 * 20 + bd 2 * -20)))
    (0 + lr * (bd 0 * (9 / 10))) (20 + lr * (bd 1 * (9 / 10))) (-20 + lr * (bd 2 * (9 / 10))) (0 + lr * bd 0) (-20 + lr * bd 1) (20 + lr * bd 2).
Proof.
  assert (F : forward RA bad_net [] = [[]; [(0%Z, 9 / 10)]; softmax_layer RA (List.last bad_net []) [(0%Z, 9 / 10)]]).
  { unfold bad_net, three. cbn [forward List.last]. by rewrite hidden_three by lra. }
  assert (I0 : input [] bad_net 0 = []) by (unfold input; by rewrite F).
  assert (I1 : input [] bad_net 1 = [(0%Z, 9 / 10)]) by (unfold input; by rewrite F).
  assert (E0 : err [0%Z] [] bad_net 0 0 = bd 1 * 20 + bd 2 * -20) by (unfold err; by rewrite bad_back).
  assert (E1 : forall k, (k < 3)%nat -> err [0%Z] [] bad_net 1 k = bd k).
  { intros k Hk. unfold err. rewrite bad_back. destruct k as [|[|[|k]]]; [done..|lia]. }
  unfold code_net, each_unit.
  change (imap _ bad_net) with
   [[(0%Z, stepped RA lr (err [0%Z] [] bad_net 0 0) (input [] bad_net 0) [], 9 / 10 + (lr + err [0%Z] [] bad_net 0 0))];
    [(0%Z, stepped RA lr (err [0%Z] [] bad_net 1 0) (input [] bad_net 1) [0], 0 + lr * err [0%Z] [] bad_net 1 0);
     (1%Z, stepped RA lr (err [0%Z] [] bad_net 1 1) (input [] bad_net 1) [20], -20 + lr * err [0%Z] [] bad_net 1 1);
     (2%Z, stepped RA lr (err [0%Z] [] bad_net 1 2) (input [] bad_net 1) [-20], 20 + lr * err [0%Z] [] bad_net 1 2)]].
  rewrite I0, I1, E0, !E1 by lia. reflexivity.
Qed.
Lemma bad_values : exists s t, bd 0 = 1 - s /\ 0 < s < 1 /\ bd 1 = - t /\ 0 < t < 1 /\ 10 <= bd 1 * 20 + bd 2 * -20 <= 20.
Proof.
  pose proof (exp_ineq1 2 ltac:(lra)) as H2. set (a := exp 2) in *. assert (Ha : exp (-2) = / a) by (replace (-2) with (- (2)) by ring; apply exp_Ropp).
  assert (Hb : 0 < / a) by (apply Rinv_0_lt_compat; lra). assert (Hb3 : / a < / 3) by (apply Rinv_lt_contravar; lra).
  assert (HZ : bZ = 1 + (/ a + (a + 0))) by (unfold bZ; rewrite exp_0, Ha; reflexivity). set (b := / a) in *.
  assert (PZ : 0 < bZ) by lra. assert (IZ : 0 < / bZ) by (by apply Rinv_0_lt_compat).
  assert (Q : forall x, x < bZ -> 0 < x -> 0 < x / bZ < 1).
  { intros x H H0. unfold Rdiv. split; [by apply Rmult_lt_0_compat|]. apply (Rmult_lt_reg_r bZ); [done|]. rewrite Rmult_assoc, Rinv_l by lra. lra. }
  exists (exp 0 / bZ), (exp (-2) / bZ). split; [done|]. split; [apply Q; rewrite exp_0; lra|]. split; [unfold bd; ring|]. split; [apply Q; rewrite Ha; lra|].
  assert (EE : bd 1 * 20 + bd 2 * -20 = 20 * (a - b) / bZ) by (unfold bd; rewrite Ha; fold a; unfold Rdiv; ring). rewrite EE.
  split.
  - apply (Rmult_le_reg_r bZ); [done|]. unfold Rdiv. rewrite Rmult_assoc, Rinv_l by lra. lra.
  - apply (Rmult_le_reg_r bZ); [done|]. unfold Rdiv. rewrite Rmult_assoc, Rinv_l by lra. lra.
Qed.
Lemma ln_le_pred x : 0 < x -> ln x <= x - 1.
Proof.
  intros X. destruct (Req_dec (ln x) 0) as [E|E].
  - pose proof (exp_ln x X) as HE. rewrite E, exp_0 in HE. lra.
  - pose proof (exp_ineq1 (ln x) E) as HE. rewrite exp_ln in HE by done. lra.
Qed.
Lemma bad_loss : loss [0%Z] [] bad_net <= 10.
Proof.
  unfold bad_net. rewrite three_loss by lra.
  replace (0 * (9 / 10) + 0) with 0 by lra. replace (20 * (9 / 10) + -20) with (-2) by lra. replace (-20 * (9 / 10) + 20) with 2 by lra.
  assert (exp 2 <= 9). { replace 2 with (1 + 1) by ring. rewrite exp_plus. pose proof exp_le_3. pose proof (exp_pos 1). nra. }
  assert (exp (-2) < 1) by (rewrite <- exp_0; apply exp_increasing; lra). pose proof (exp_pos (-2)). pose proof (exp_pos 2).
  pose proof (ln_le_pred (exp 0 + (exp (-2) + (exp 2 + 0)))) as HQ. rewrite exp_0 in *. specialize (HQ ltac:(lra)). lra.
Qed.
Lemma bad_step lr : 0 < lr < / 100 -> loss [0%Z] [] bad_net + 100 < loss [0%Z] [] (code_net [0%Z] [] bad_net lr).
Proof.
  intros [L0 L1]. rewrite bad_code. destruct bad_values as (s & t & E0 & S0 & E1 & T0 & HD). rewrite E0, E1 in *. set (d := - t * 20 + bd 2 * -20) in *.
  rewrite three_loss by lra. pose proof bad_loss.
  set (h := 9 / 10 + (lr + d)). assert (Hh : 10.9 <= h <= 21) by (unfold h; lra).
  set (z0 := (0 + lr * ((1 - s) * (9 / 10))) * h + (0 + lr * (1 - s))). set (z1 := (20 + lr * (- t * (9 / 10))) * h + (-20 + lr * - t)). set (z2 := (_ * h + (20 + _))).
  assert (Z0 : z0 <= 1). { unfold z0. assert (0 <= lr * (1 - s) <= / 100) by nra. set (y := lr * (1 - s)) in *. replace (lr * ((1 - s) * (9 / 10))) with (9 / 10 * y) by (unfold y; ring). clearbody y. nra. }
  assert (Z1 : 190 <= z1). { unfold z1. assert (0 <= lr * t <= / 100) by nra. set (y := lr * t) in *. replace (lr * (- t * (9 / 10))) with (- (9 / 10 * y)) by (unfold y; ring). replace (lr * - t) with (- y) by (unfold y; ring). clearbody y. nra. }
  assert (LN : z1 < ln (exp z0 + (exp z1 + (exp z2 + 0)))).
  { rewrite <- (ln_exp z1) at 1. apply ln_increasing; [apply exp_pos|]. pose proof (exp_pos z0). pose proof (exp_pos z2). lra. }
  lra.
Qed.
Lemma bad_ok : labels_active [0%Z] bad_net /\ off_kink bad_net [] /\ 1%Z ∈ map (u_id RA) (List.last bad_net []) /\ 1%Z ∉ [0%Z].
Proof.
  split.
  - eexists. split; [reflexivity|]. split; [done|]. exact three_ids.
  - split; [|split; [right; left|rewrite elem_of_list_singleton; lia]]. split; [|done]. constructor; [|constructor]. rewrite pre_R. cbn [map u_b snd]. rewrite sum_nil. change (num RA) with R. lra.
Qed.
Lemma code_not_descent : ~ forall lab feats net k, labels_active lab net -> off_kink net feats ->
  k ∈ map (u_id RA) (List.last net []) -> k ∉ lab ->
  exists r, 0 < r /\ forall lr, 0 < lr < r -> loss lab feats (code_net lab feats net lr) < loss lab feats net.
Proof.
  intros H. destruct bad_ok as (H1 & H2 & H3 & H4). destruct (H [0%Z] [] bad_net 1%Z H1 H2 H3 H4) as (r & R0 & HR).
  set (x := Rmin (r / 2) (/ 200)). assert (X : 0 < x /\ x <= r / 2 /\ x <= / 200) by (unfold x; split; [apply Rmin_glb_lt; lra|split; [apply Rmin_l|apply Rmin_r]]).
  specialize (HR x ltac:(lra)). pose proof (bad_step x ltac:(lra)). lra.
Qed.
Lemma code_far : exists lab feats net k, labels_active lab net /\ off_kink net feats /\ k ∈ map (u_id RA) (List.last net []) /\ k ∉ lab /\
  forall lr, 0 < lr < / 100 -> loss lab feats net + 100 < loss lab feats (code_net lab feats net lr).
Proof. exists [0%Z], [], bad_net, 1%Z. destruct bad_ok as (H1 & H2 & H3 & H4). split; [exact H1|]. split; [exact H2|]. split; [exact H3|]. split; [exact H4|exact bad_step]. Qed.
