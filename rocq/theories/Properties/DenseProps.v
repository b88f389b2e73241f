(** Property C72: prediction in a dense network (package network). *)
From Verif.Spec Require Import LayerSpec.
From Verif.Proofs Require Import DenseProofs.
From Verif.Properties Require Import NetProps.
Local Open Scope Z_scope.

(** * C72 A dense network's prediction for an example depends on its parameters and the example's features only *)
Theorem C72_dense : forall E m c n nv exs cnt n' m',
  live E m c n nv -> dense_prediction n -> network_PredictClass E c n exs m = Ok ((cnt, n'), m') ->
  cnt = hits exs (map (fun ex => dense_class (e_exp E) (parameters_of (nv_layers nv)) (features ex)) exs).
Proof. exact dense_predict. Qed.
Print Assumptions C72_dense.
(** So the total does not depend on how the examples are divided into batches and ordered, on earlier predictions,
    or on anything in memory but the parameters. *)
Theorem C72_batches : forall E c n bs bs' m nv t m1 m2 n2 c2 nv2 t' m2',
  live E m c n nv -> dense_prediction n -> live E m2 c2 n2 nv2 -> dense_prediction n2 ->
  parameters_of (nv_layers nv2) = parameters_of (nv_layers nv) -> concat bs ≡ₚ concat bs' ->
  predict_batches E c n bs m = Ok (t, m1) -> predict_batches E c2 n2 bs' m2 = Ok (t', m2') -> t' = t.
Proof. exact dense_batches. Qed.
Print Assumptions C72_batches.

(** The demonstration network predicts densely; after training it classifies one of the two examples, also when they
    are predicted one by one in the other order. *)
Example C72_ex :
  dense_prediction net_n /\
  exists m nv, call_ops netE 1 net_n net_ops net_m = Ok (net_n, m) /\ live netE m 1 net_n nv /\
    (exists m', predict_batches netE 1 net_n [net_exs] m = Ok (1, m')) /\
    (exists m', predict_batches netE 1 net_n (map (fun ex => [ex]) (rev net_exs)) m = Ok (1, m')).
Proof.
  split.
  - intros j Hj.
    assert (Hs : nw_num net_n = 2 /\ drop 2 (nw_sparsity net_n) = [fone; fone]) by (split; vm_compute; reflexivity).
    destruct Hs as [Hn Hs]. rewrite Hn in Hj |- *. exists fone. split; [|vm_compute; reflexivity]. change (Z.to_nat 2) with 2%nat. rewrite <- lookup_drop, Hs.
    destruct j as [|[|j]]; [done..|lia].
  - destruct (net_live net_ops) as (m & nv & HO & L); [vm_compute; reflexivity|]. exists m, nv. split; [exact HO|]. split; [exact L|].
    assert (H : forall bs, match call_ops netE 1 net_n net_ops net_m with
                | Ok (n, m) => match predict_batches netE 1 n bs m with Ok (c, _) => c =? 1 | Panic _ => false end
                | Panic _ => false end = true -> exists m', predict_batches netE 1 net_n bs m = Ok (1, m')).
    { intros bs. rewrite HO. destruct (predict_batches netE 1 net_n bs m) as [[t m']|]; [|discriminate]. intros Ht%Z.eqb_eq. subst t. by exists m'. }
    split; apply H; vm_compute; reflexivity.
Qed.
