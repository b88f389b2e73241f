(** Property C96: training that uses every node does not depend on how nodes would be sampled. *)
From Verif.Spec Require Import LayerSpec InferSpec ShapeSpec DenseTrainSpec.
From Verif.Proofs Require Import NetNew NetLive DenseTrainProofs.
From Verif.Properties Require Import NetProps.
From Coq Require Import Lia.
Local Open Scope Z_scope.

(** * C96 With every node active, training is determined by the initial parameters and the examples *)
(** Two networks of the same sizes that start from the same normal draws and see the same examples have the same
    weights and biases, whatever their hash functions, K, L, RangePow, ways of sampling, random numbers, rehashing and
    predictions in between. *)
Theorem C96_parameters : forall E1 E2 c1 c2 num sizes types batch lr inputDim k1 l1 rp1 k2 l2 rp2 sps1 sps2 m1 m2 n1 n2 m1' m2' os1 os2 x1 x2 a1 a2,
  e_LoadWeight E1 = false -> e_LoadWeight E2 = false -> same_arithmetic E1 E2 ->
  dims_ok E1 num sizes batch inputDim -> dims_ok E2 num sizes batch inputDim ->
  dense_training num sps1 -> dense_training num sps2 -> same_draws m1 m2 ->
  network_New E1 c1 num sizes types batch lr inputDim k1 l1 rp1 sps1 m1 = Ok (n1, m1') ->
  network_New E2 c2 num sizes types batch lr inputDim k2 l2 rp2 sps2 m2 = Ok (n2, m2') ->
  lessons os1 = lessons os2 ->
  call_ops E1 c1 n1 os1 m1' = Ok (x1, a1) -> call_ops E2 c2 n2 os2 m2' = Ok (x2, a2) ->
  exists nv1 nv2, live E1 a1 c1 n1 nv1 /\ live E2 a2 c2 n2 nv2 /\ parameters_of (nv_layers nv1) = parameters_of (nv_layers nv2).
Proof. exact dense_parameters. Qed.
Print Assumptions C96_parameters.

(** If predictions use every node as well, the two networks also count the same examples as correct. *)
Theorem C96_predictions : forall E1 E2 c1 c2 num sizes types batch lr inputDim k1 l1 rp1 k2 l2 rp2 sps1 sps2 m1 m2 n1 n2 m1' m2' os1 os2 x1 x2 a1 a2 exs cnt1 cnt2 y1 y2 b1 b2,
  e_LoadWeight E1 = false -> e_LoadWeight E2 = false -> same_arithmetic E1 E2 ->
  dims_ok E1 num sizes batch inputDim -> dims_ok E2 num sizes batch inputDim ->
  dense_training num sps1 -> dense_training num sps2 -> same_draws m1 m2 ->
  network_New E1 c1 num sizes types batch lr inputDim k1 l1 rp1 sps1 m1 = Ok (n1, m1') ->
  network_New E2 c2 num sizes types batch lr inputDim k2 l2 rp2 sps2 m2 = Ok (n2, m2') ->
  lessons os1 = lessons os2 ->
  call_ops E1 c1 n1 os1 m1' = Ok (x1, a1) -> call_ops E2 c2 n2 os2 m2' = Ok (x2, a2) ->
  dense_prediction n1 -> dense_prediction n2 ->
  network_PredictClass E1 c1 n1 exs a1 = Ok ((cnt1, y1), b1) -> network_PredictClass E2 c2 n2 exs a2 = Ok ((cnt2, y2), b2) -> cnt1 = cnt2.
Proof. exact dense_counts. Qed.
Print Assumptions C96_predictions.

(** Two such networks: other random numbers, another way of sampling, other K and L, other rehashing. *)
Definition dt_sps : list float64 := [fone; fone; fone; fone].
Definition dt_E2 (adam : bool) : env :=
  mkEnv adam false SparseRandomProjectionHashFunction LayerMode1 (fun x => x) (fun x _ => x) (fun x => x) (fun _ x => x) 100.
Definition dt_E1 (adam : bool) : env :=
  mkEnv adam false SparseRandomProjectionHashFunction LayerMode4 (fun x => x) (fun x _ => x) (fun x => x) (fun _ x => x) 100.
Definition dt_m2 : mem :=
  mkMem [] [] [] [] [] [] [] [] [] [] (mkRng (fun n => Z.of_nat n * 104729 + 3) 5)
    (fun n => f_of_Z (100 * (Z.of_nat (n - 2) mod 5) - 100)) 2 0.
Definition dt_ops1 : list net_op := [OpTrain net_exs 0 true true; OpPredict net_exs; OpTrain net_exs 1 false false].
Definition dt_ops2 : list net_op := [OpTrain net_exs 0 false false; OpTrain net_exs 1 true false; OpPredict []].
Definition dt_run (E : env) (c : Z) (k l : list Z) (m : mem) (os : list net_op) : bool :=
  match network_New E c 2 [3; 2] [ReLU; Softmax] 2 net_half 4 k l [2; 2] dt_sps m with
  | Ok (n, m') => fine (call_ops E c n os m')
  | Panic _ => false
  end.
Lemma dt_run_Ok E c k l m os : dt_run E c k l m os = true ->
  exists n m' x a, network_New E c 2 [3; 2] [ReLU; Softmax] 2 net_half 4 k l [2; 2] dt_sps m = Ok (n, m') /\ call_ops E c n os m' = Ok (x, a).
Proof.
  unfold dt_run. destruct (network_New _ _ _ _ _ _ _ _ _ _ _ _ _) as [[n m']|]; [|discriminate].
  destruct (call_ops E c n os m') as [[x a]|] eqn:EO; [|discriminate]. intros _. exists n, m', x, a. split; [reflexivity|exact EO].
Qed.
Lemma dt_dims E : e_Hash E = SparseRandomProjectionHashFunction -> dims_ok E 2 [3; 2] 2 4.
Proof.
  intros HE. split; [lia|]. split; [lia|]. intros [|[|i]] size prev Hi H1 H2; [..|lia]; cbn in H1, H2; injection H1 as <-; injection H2 as <-;
    (split; [lia|]; split; [lia|]; split; [lia|]); rewrite HE; discriminate.
Qed.
Lemma dt_dense : dense_training 2 dt_sps.
Proof. intros [|[|j]] H; [..|lia]; exists fone; split; reflexivity. Qed.
Lemma dt_draws : same_draws net0 dt_m2.
Proof. intros i. unfold net0, dt_m2. cbn [m_norm m_npos]. f_equal. f_equal. f_equal. f_equal. f_equal. lia. Qed.
Example C96_parameters_ex : Forall (fun adam => exists n1 n2 m1' m2' x1 x2 a1 a2,
  network_New (dt_E1 adam) 1 2 [3; 2] [ReLU; Softmax] 2 net_half 4 [1; 1] [2; 2] [2; 2] dt_sps net0 = Ok (n1, m1') /\
  network_New (dt_E2 adam) 7 2 [3; 2] [ReLU; Softmax] 2 net_half 4 [2; 2] [1; 1] [2; 2] dt_sps dt_m2 = Ok (n2, m2') /\
  call_ops (dt_E1 adam) 1 n1 dt_ops1 m1' = Ok (x1, a1) /\ call_ops (dt_E2 adam) 7 n2 dt_ops2 m2' = Ok (x2, a2) /\
  exists nv1 nv2, live (dt_E1 adam) a1 1 n1 nv1 /\ live (dt_E2 adam) a2 7 n2 nv2 /\
    parameters_of (nv_layers nv1) = parameters_of (nv_layers nv2)) [true; false].
Proof.
  apply Forall_forall. intros adam _.
  assert (R1 : dt_run (dt_E1 adam) 1 [1; 1] [2; 2] net0 dt_ops1 = true) by (destruct adam; vm_compute; reflexivity).
  assert (R2 : dt_run (dt_E2 adam) 7 [2; 2] [1; 1] dt_m2 dt_ops2 = true) by (destruct adam; vm_compute; reflexivity).
  apply dt_run_Ok in R1 as (n1 & m1' & x1 & a1 & N1 & O1). apply dt_run_Ok in R2 as (n2 & m2' & x2 & a2 & N2 & O2).
  exists n1, n2, m1', m2', x1, x2, a1, a2. split; [exact N1|]. split; [exact N2|]. split; [exact O1|]. split; [exact O2|].
  assert (HE : lessons dt_ops1 = lessons dt_ops2) by reflexivity.
  exact (C96_parameters (dt_E1 adam) (dt_E2 adam) _ _ _ _ _ _ _ _ _ _ _ _ _ _ _ _ _ _ _ _ _ _ _ _ _ _ _ _ eq_refl eq_refl
    (conj eq_refl (conj eq_refl eq_refl)) (dt_dims (dt_E1 adam) eq_refl) (dt_dims (dt_E2 adam) eq_refl) dt_dense dt_dense dt_draws N1 N2 HE O1 O2).
Qed.
