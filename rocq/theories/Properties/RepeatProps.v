(** Property C94: repeating a prediction. *)
From Verif.Spec Require Import LayerSpec InferSpec LocalSpec RepeatSpec.
From Verif.Proofs Require Import NetNew NetLive NetInfer RepeatProofs.
From Verif.Properties Require Import NetProps LocalProps.
From Coq Require Import Lia.
Local Open Scope Z_scope.

(** * C94 Predicting the same examples again gives the same answer *)
(** LayerMode1, only the output layer sampled: an example with a clear winner gets that class, whatever the random
    source and the iteration order of Go's maps do. *)
Theorem C94_winner : forall E m c n nv exs cnt n' m' ws,
  e_Mode E = LayerMode1 -> live E m c n nv -> sampled_output n -> Forall2 (wins E nv) exs ws ->
  network_PredictClass E c n exs m = Ok ((cnt, n'), m') -> cnt = hits exs ws.
Proof. exact wins_predicted. Qed.
Print Assumptions C94_winner.

(** So the examples can be predicted again, also after other predictions. *)
Theorem C94_repeat : forall E m c n nv exs ws cnt n1 m1 between cnt2 n2 m2 cnt3 n3 m3,
  e_Mode E = LayerMode1 -> live E m c n nv -> sampled_output n -> Forall2 (wins E nv) exs ws ->
  network_PredictClass E c n exs m = Ok ((cnt, n1), m1) -> network_PredictClass E c n1 between m1 = Ok ((cnt2, n2), m2) ->
  network_PredictClass E c n2 exs m2 = Ok ((cnt3, n3), m3) -> cnt3 = cnt.
Proof. exact wins_repeat. Qed.
Print Assumptions C94_repeat.

(** Predictions that use every node can be repeated in every mode. *)
Theorem C94_dense : forall E m c n nv exs cnt n1 m1 between cnt2 n2 m2 cnt3 n3 m3,
  live E m c n nv -> dense_prediction n ->
  network_PredictClass E c n exs m = Ok ((cnt, n1), m1) -> network_PredictClass E c n1 between m1 = Ok ((cnt2, n2), m2) ->
  network_PredictClass E c n2 exs m2 = Ok ((cnt3, n3), m3) -> cnt3 = cnt.
Proof. exact dense_repeat. Qed.
Print Assumptions C94_dense.

(** The two examples of NetProps in the network of LocalProps: nodes 2 and 1 win, and the second is right. *)
Example C94_winner_ex : exists nv m', live locE loc_m 1 loc_n nv /\ sampled_output loc_n /\ Forall2 (wins locE nv) net_exs [2; 1] /\
  network_PredictClass locE 1 loc_n net_exs loc_m = Ok ((1, loc_n), m').
Proof.
  assert (HC : match ref_net_new locE (m_norm net0) 2 [3; 4] [ReLU; Softmax] 2 4 [1; 1] [2; 4] [2; 2] [fone; net_half; fone; net_half]
                       (m_npos net0) (m_rng net0) (m_seeds net0) with
               | Ok nv => forallb (fun p => winsb locE nv (fst p) (snd p)) (zip net_exs [2; 1]) | Panic _ => false end = true) by (vm_compute; reflexivity).
  assert (HP : match network_PredictClass locE 1 loc_n net_exs loc_m with Ok ((k, _), _) => k =? 1 | Panic _ => false end = true)
    by (vm_compute; reflexivity).
  assert (HS : forall arr, sampled_output (mkNet 1 arr net_half 2 [fone; net_half; fone; net_half])).
  { intros arr. split; [intros [|j] Hj; [exists fone; split; reflexivity|cbn in Hj; lia]|]. exists net_half. split; reflexivity. }
  pose proof loc_made_Ok as HM. revert HM HP. generalize loc_n, loc_m. intros n m HM HP.
  pose proof (network_New_ref locE 1 2 2 4 [3; 4] [ReLU; Softmax] net_half [1; 1] [2; 4] [2; 2] [fone; net_half; fone; net_half] net0 eq_refl loc_dims) as HR.
  destruct (refines_Ok _ _ _ _ _ HR HM) as (nv & Hnv & (arr & Harr) & L & _). rewrite Hnv in HC. clear HR HM Hnv.
  destruct (network_PredictClass locE 1 n net_exs m) as [[[k n'] m']|] eqn:EP; [|discriminate HP]. apply Z.eqb_eq in HP as ->.
  destruct (predict_unchanged _ _ _ _ _ _ _ _ _ L EP) as (Hn & _). rewrite Hn in EP.
  exists nv, m'. split; [exact L|]. split; [rewrite Harr; apply HS|]. split; [|rewrite Hn; reflexivity].
  unfold net_exs in HC |- *. cbn [zip zip_with forallb fst snd] in HC. apply andb_prop in HC as [H1 HC]. apply andb_prop in HC as [H2 _].
  constructor; [apply winsb_sound; [reflexivity|exact H1]|]. constructor; [apply winsb_sound; [reflexivity|exact H2]|]. constructor.
Qed.

(** In general a prediction cannot be repeated: LayerMode2 samples the output layer at random. *)
Definition repeat_claim : Prop := forall E m c n exs cnt n1 m1 cnt2 n2 m2, (exists nv, live E m c n nv) ->
  network_PredictClass E c n exs m = Ok ((cnt, n1), m1) -> network_PredictClass E c n1 exs m1 = Ok ((cnt2, n2), m2) -> cnt2 = cnt.
Definition repE : env :=
  mkEnv true false SparseRandomProjectionHashFunction LayerMode2 (fun x => x) (fun x _ => x) (fun x => x) (fun _ x => x) 100.
Definition rep0 : mem :=
  mkMem [] [] [] [] [] [] [] [] [] [] (mkRng (fun n => (Z.of_nat n * 7 / 5) * 2^32 + Z.of_nat n * 7919) 0) (m_norm net0) 0 0.
Definition rep_exs : list Example_ := [mkExample (Some [mkPair 0 fone]) (Some [1])].
Lemma rep_dims : dims_ok repE 2 [3; 4] 2 4.
Proof. exact loc_dims. Qed.
Theorem C94_random_refuted : ~ repeat_claim.
Proof.
  intros HC.
  assert (H : match network_New repE 1 2 [3; 4] [ReLU; Softmax] 2 net_half 4 [1; 1] [2; 4] [2; 2] [fone; net_half; fone; net_half] rep0 with
    | Ok (n, m) => match network_PredictClass repE 1 n rep_exs m with
      | Ok ((k1, n1), m1) => match network_PredictClass repE 1 n1 rep_exs m1 with Ok ((k2, _), _) => (k1 =? 1) && (k2 =? 0) | Panic _ => false end
      | Panic _ => false end
    | Panic _ => false end = true) by (vm_compute; reflexivity).
  destruct (network_New _ _ _ _ _ _ _ _ _ _ _ _ _) as [[n m]|] eqn:HM; [|discriminate H].
  pose proof (network_New_ref repE 1 2 2 4 [3; 4] [ReLU; Softmax] net_half [1; 1] [2; 4] [2; 2] [fone; net_half; fone; net_half] rep0 eq_refl rep_dims) as HR.
  destruct (refines_Ok _ _ _ _ _ HR HM) as (nv & _ & _ & L & _). clear HR HM.
  destruct (network_PredictClass repE 1 n rep_exs m) as [[[k1 n1] m1]|] eqn:E1; [|discriminate H].
  destruct (network_PredictClass repE 1 n1 rep_exs m1) as [[[k2 n2] m2]|] eqn:E2; [|discriminate H].
  apply andb_prop in H as [H1%Z.eqb_eq H2%Z.eqb_eq].
  pose proof (HC _ _ _ _ _ _ _ _ _ _ _ (ex_intro _ nv L) E1 E2). lia.
Qed.
Print Assumptions C94_random_refuted.
