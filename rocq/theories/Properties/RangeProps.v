(** Property C73: the ranges of outputs and errors (package network). *)
From Verif.Spec Require Import LayerSpec RangeSpec.
From Verif.Proofs Require Import RangeProofs.
From Verif.Properties Require Import NetProps.
Local Open Scope Z_scope.

(** * C73 Outputs, shares and errors stay in their ranges *)
(** In every pass of every training call; and all parameters remain binary64 numbers. *)
Theorem C73_training : forall E c num sizes types batch lr inputDim k l rp sparsity m n m' os n' m'',
  e_LoadWeight E = false -> dims_ok E num sizes batch inputDim -> 1 <= batch ->
  math_ok E -> (forall i, representable (m_norm m i)) -> representable lr -> Forall op_ok os ->
  network_New E c num sizes types batch lr inputDim k l rp sparsity m = Ok (n, m') ->
  call_ops E c n os m' = Ok (n', m'') ->
  exists nv nv' pss, live E m' c n nv /\ live E m'' c n nv' /\ history E batch sparsity lr nv os pss nv' /\
    Forall (fun lv => Forall (node_representable (e_UseAdam E)) (lv_nodes lv)) (nv_layers nv') /\
    Forall2 (Forall2 (fun ex p => pass_in_range batch (map lv_type (nv_layers nv)) (labels ex) p)) (trained_examples os) pss.
Proof. exact range_calls. Qed.
Print Assumptions C73_training.
(** In whatever a network computes for an input after any calls. *)
Theorem C73_inference : forall E c num sizes types batch lr inputDim k l rp sparsity m n m' os n' m'',
  e_LoadWeight E = false -> dims_ok E num sizes batch inputDim -> 1 <= batch ->
  math_ok E -> (forall i, representable (m_norm m i)) -> representable lr -> Forall op_ok os ->
  network_New E c num sizes types batch lr inputDim k l rp sparsity m = Ok (n, m') ->
  call_ops E c n os m' = Ok (n', m'') ->
  exists nv, live E m'' c n nv /\
    forall off lab feats outs, Forall (fun p => representable (iv_value p)) feats -> inference E (nv_layers nv) sparsity off lab feats outs ->
      outputs_in_range (map lv_type (nv_layers nv)) outs.
Proof. exact range_inference. Qed.
Print Assumptions C73_inference.

(** A crude exponential and power that meet the assumptions: 1 for positive numbers, a half for the others. *)
Definition rangeE : env :=
  mkEnv true false SparseRandomProjectionHashFunction LayerMode4
    (fun x => if fltb fzero x then fone else net_half) (fun x y => net_half) (fun x => x) (fun _ x => x) 100.
Definition range_train : res unit :=
  match network_New rangeE 1 2 [3; 2] [ReLU; Softmax] 2 net_half 4 [1; 1] [2; 2] [2; 2] [fone; net_half; fone; fone] net0 with
  | Ok (n, m) => match call_ops rangeE 1 n net_ops m with Ok _ => Ok tt | Panic p => Panic p end
  | Panic p => Panic p
  end.
Example C73_ex :
  math_ok rangeE /\ representable net_half /\ Forall op_ok net_ops /\ dims_ok rangeE 2 [3; 2] 2 4 /\ range_train = Ok tt /\
  (forall i, representable (m_norm net0 i)) /\
  (* a label of two with a batch of one may be pushed down *)
  output_error 1 [0; 1] fone (mkPair 0 fone) <> fzero /\ fltb (output_error 1 [0; 1] fone (mkPair 0 fone)) fzero = true.
Proof.
  split.
  { split; [intros x _; cbn [e_exp rangeE]; destruct (fltb fzero x); vm_compute; reflexivity| |intros; vm_compute; reflexivity].
    intros x _ Hx. cbn [e_exp rangeE]. rewrite Hx. right. split; vm_compute; reflexivity. }
  split; [vm_compute; reflexivity|]. split.
  { repeat constructor; vm_compute; reflexivity. }
  split.
  { split; [lia|]. split; [lia|]. intros i size prev Hi H1 H2. destruct i as [|[|i]]; [..|lia]; cbn in H1, H2; injection H1 as <-; injection H2 as <-;
      (split; [lia|]; split; [lia|]; split; [lia|]; discriminate). }
  split; [vm_compute; reflexivity|]. split.
  { intros i. cbn [net0 m_norm]. unfold representable. rewrite <- (Z.mod_small (Z.of_nat i mod 5) 5) by (apply Z.mod_pos_bound; lia).
    assert (H : 0 <= Z.of_nat i mod 5 < 5) by (apply Z.mod_pos_bound; lia). revert H. generalize (Z.of_nat i mod 5). intros z Hz.
    assert (z = 0 \/ z = 1 \/ z = 2 \/ z = 3 \/ z = 4) as [->|[->|[->|[->| ->]]]] by lia; vm_compute; reflexivity. }
  split; [vm_compute; discriminate|vm_compute; reflexivity].
Qed.
