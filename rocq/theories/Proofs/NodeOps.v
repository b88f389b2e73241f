(** Histories of calls on nodes; copy-on-write with a foreign cowId. *)
From Verif.Spec Require Export NodeHist.
From Verif.Proofs Require Export NodeProofs.
From Coq Require Import Lia ZifyBool ZifyNat.

Lemma touched_same T B S m m' : touched T B S m m' -> same_objects m m'.
Proof. intros []. done. Qed.
Lemma same_objects_trans m1 m2 m3 : same_objects m1 m2 -> same_objects m2 m3 -> same_objects m1 m3.
Proof. unfold same_objects. intros (?&?&?&?&?&?) (?&?&?&?&?&?). repeat split; congruence. Qed.

Lemma PurturbWeight_rep m c n ly v i d : rep m c n ly v -> ly_ok ly ->
  refines (node_PurturbWeight c n i d m) (add_at (v_w v) i d)
    (fun w r m' => r.2 = n /\ sget w i = Ok r.1 /\ rep m' c n ly (v_set_w v w) /\ tnode ly m m').
Proof.
  intros R OK. unfold node_PurturbWeight.
  eapply refines_skip; [by eapply clone_id|]. eapply refines_skip; [by eapply own_base_id|].
  eapply refines_skip; [by eapply load_base_rep|]. cbn [b_weights].
  pose proof (fadd_slot_felems _ _ _ i d (rep_w _ _ _ _ _ R)) as H.
  destruct (add_at (v_w v) i d) as [w|p] eqn:Ea; cbn [refines]; [|by erewrite bindM_Panic by exact H].
  destruct H as (m' & H & He & Ht).
  assert (exists x, sget w i = Ok x) as [x Hx].
  { unfold add_at in Ea. destruct (sget (v_w v) i); [|done]. cbn [mbind res_bind] in Ea.
    apply sset_Ok in Ea as [Hi ->]. eexists. apply sget_Ok. split; [lia|]. apply list_lookup_insert. lia. }
  exists (x, n), m'. split.
  { erewrite bindM_Ok by exact H. rewrite (bindM_Ok_or _ _ m' _ (fget_felems _ _ _ i He)). by rewrite Hx. }
  split; [done|]. split; [done|]. split; [|eapply tnode_slice; [|exact Ht]; set_solver].
  eapply (rep_set_slice _ _ _ _ _ R OK m' (ly_w ly)); [set_solver|done|done|done].
Qed.

Lemma situated_step m m' c n ly v pa ns lys ps v' ps' :
  situated m c n ly v pa ns lys ps -> m_na m' = m_na m -> rep m' c n ly v' -> reps m' c ns lys ps' ->
  situated m' c n ly v' pa ns lys ps'.
Proof. intros [] Hna R RP. constructor; try done. by rewrite Hna. Qed.

Lemma situated_tnode m m' c n ly v pa ns lys ps v' :
  situated m c n ly v pa ns lys ps -> rep m' c n ly v' -> tnode ly m m' -> situated m' c n ly v' pa ns lys ps.
Proof.
  intros ST R T. eapply situated_step; [exact ST|exact (tc_na _ _ _ _ _ T)|done|].
  eapply reps_frame; [apply ST|exact T|]. eapply Forall_impl; [apply (sit_sep _ _ _ _ _ _ _ _ _ ST)|].
  intros ly' H. apply apart_avoids_node, apart_sym, H.
Qed.

Ltac bind_inv H := repeat match type of H with
  | (Ok _ ≫= _) = Ok _ => cbn [mbind res_bind] in H
  | (?c ≫= _) = Ok _ => let E := fresh "E" in destruct c eqn:E; cbn [mbind res_bind] in H; [|discriminate H]
  end.

Ltac use_refine H := let r := fresh "r" in
  match type of H with
  | refines _ ?r _ => destruct r eqn:?; cbn [refines] in H;
      [destruct H as (? & ? & H & ?)|rewrite H in *; try discriminate]
  end.

(** The activation read from the slot of input [i]. *)
Definition act_of (v : NodeView) (i : Z) : res float64 := s ← sget (v_slots v) i; Ok (slot_act s).

Lemma v_set_slot_other v i k s s0 : sget (v_slots v) k = Ok s0 -> k <> i ->
  sget (v_slots (v_set_slot v k s)) i = sget (v_slots v) i.
Proof.
  intros Hk Hne. apply sget_Ok in Hk as [Hk _]. unfold sget. destruct (Z.ltb_spec i 0); [done|]. cbn.
  rewrite list_lookup_insert_ne by lia. done.
Qed.

Lemma ref_activate_inv v data k a v' : ref_activate v data k = Ok (a, v') ->
  exists s s', sget (v_slots v) k = Ok s /\ v' = v_set_slot v k s' /\ slot_act s' = a.
Proof.
  unfold ref_activate. destruct (v_batch v <? k); [done|].
  destruct (sget (v_slots v) k) as [s|]; cbn [mbind res_bind]; [|done].
  destruct (weighted_sum (v_w v) data) as [sum|]; cbn [mbind res_bind]; [|done].
  destruct (v_type v); [destruct (fltb _ _)|..]; try done; intros [= <- <-]; eexists _, _; done.
Qed.

Lemma ref_grad_slots adam lr v j g v' : ref_grad adam lr v j g = Ok v' -> v_slots v' = v_slots v.
Proof.
  unfold ref_grad. destruct adam; [destruct (add_at (v_t v) j g)|destruct (add_at (v_w v) j (fmul lr g))];
    cbn [mbind res_bind]; try done; by intros [= <-].
Qed.

Lemma foldM_pres {T A} (I : T -> Prop) (f : T -> A -> res T) xs s s' :
  foldM f s xs = Ok s' -> I s -> (forall s x s', I s -> f s x = Ok s' -> I s') -> I s'.
Proof.
  intros H HI Hf. revert s H HI. induction xs as [|x xs IH]; intros s; cbn [foldM].
  - by intros [= <-].
  - destruct (f s x) eqn:E; cbn [mbind res_bind]; [|done]. intros H HI. eapply IH; [exact H|]. by eapply Hf.
Qed.

Lemma ref_backprop_slots adam lr v ps pairs k v' ps' : ref_backprop adam lr v ps pairs k = Ok (v', ps') ->
  exists s, sget (v_slots v) k = Ok s /\ v_slots v' = <[Z.to_nat k := mkSlot fzero fzero fzero]> (v_slots v).
Proof.
  unfold ref_backprop. destruct (sget (v_slots v) k) as [s|] eqn:E; cbn [mbind res_bind]; [|done].
  destruct (negb (on s)); [done|]. intros H.
  destruct (foldM _ (v, ps) pairs) as [[v1 ps1]|] eqn:Ef; cbn [mbind res_bind] in H; [|done].
  injection H as <- <-. exists s. split; [done|].
  assert (Hs : v_slots (v1, ps1).1 = v_slots v).
  { eapply (foldM_pres (fun st => v_slots st.1 = v_slots v)); [exact Ef|done|].
    intros [v2 ps2] p [v3 ps3] Hv Hst. cbn [fst] in *. unfold ref_backprop_step in Hst.
    bind_inv Hst.
    injection Hst as <- <-. match goal with H : ref_grad _ _ _ _ _ = Ok _ |- _ => apply ref_grad_slots in H; cbn [fst]; congruence end. }
  cbn [fst] in Hs. unfold ref_finish. destruct adam; cbn; by rewrite Hs.
Qed.

Lemma refines_map {A B B'} (o : res (A * mem)) (r : res B) (g : B -> B') (Q : B -> A -> mem -> Prop) (Q' : B' -> A -> mem -> Prop) :
  refines o r Q -> (forall b a m', Q b a m' -> Q' (g b) a m') -> refines o (b ← r; Ok (g b)) Q'.
Proof. destruct r; cbn; [|done]. intros (a0 & m0 & -> & HQ) Himp. eauto. Qed.
Lemma refines_tnode m c n ly v pa ns lys ps o (r : res NodeView) :
  situated m c n ly v pa ns lys ps ->
  refines o r (fun v' n' m' => n' = n /\ rep m' c n ly v' /\ tnode ly m m') ->
  refines o (v' ← r; Ok (v', ps))
    (fun r n' m' => n' = n /\ same_objects m m' /\ situated m' c n ly r.1 pa ns lys r.2).
Proof.
  intros ST H. eapply refines_map; [exact H|]. intros v' n' m' (-> & R & T). cbn [fst snd].
  split; [done|]. split; [by eapply touched_same|]. by eapply situated_tnode.
Qed.
Lemma res_bind_assoc {A B C} (r : res A) (f : A -> res B) (g : B -> res C) :
  ((r ≫= f) ≫= g) = (r ≫= fun x => f x ≫= g).
Proof. by destruct r. Qed.

Lemma run_op_rep E m c n ly v pa ns lys ps o :
  situated m c n ly v pa ns lys ps ->
  refines (run_op E c pa n o m) (ref_op (e_UseAdam E) o v ps)
    (fun r n' m' => n' = n /\ same_objects m m' /\ situated m' c n ly r.1 pa ns lys r.2).
Proof.
  intros ST. pose proof ST as [R OK Hna RP Hap Hoks Hsep].
  assert (SC : forall f x b tb mb vb rb,
    f x (mkBase c (v_type v) (v_batch v) (v_id v) (ly_w ly) (ly_w ly) (ly_mom ly) (ly_vel ly) (ly_t ly)
        (v_bias v) (v_tBias v) (v_momBias v) (v_velBias v) (v_mirrorBias v)) =
      mkBase c (v_type v) (v_batch v) (v_id v) (ly_w ly) (ly_w ly) (ly_mom ly) (ly_vel ly) (ly_t ly) b tb mb vb rb ->
    refines (set_scalar f c n x m) (Ok (v_set_biases v b tb mb vb rb, ps))
     (fun r n' m' => n' = n /\ same_objects m m' /\ situated m' c n ly r.1 pa ns lys r.2)).
  { intros f x b tb mb vb rb Hf. destruct (set_scalar_rep _ _ _ _ _ R _ _ _ _ _ _ _ Hf) as (m' & H & R' & T).
    exists n, m'. split; [done|]. split; [done|]. split; [by eapply touched_same|]. by eapply situated_tnode. }
  destruct o; cbn [run_op ref_op].
  - eapply refines_map; [by eapply SetT_rep|]. intros t n' m' (-> & R' & T). cbn [fst snd].
    split; [done|]. split; [by eapply touched_same|]. by eapply situated_tnode.
  - eapply refines_map; [by eapply SetAdamAvgMom_rep|]. intros t n' m' (-> & R' & T). cbn [fst snd].
    split; [done|]. split; [by eapply touched_same|]. by eapply situated_tnode.
  - eapply refines_map; [by eapply SetAdamAvgVel_rep|]. intros t n' m' (-> & R' & T). cbn [fst snd].
    split; [done|]. split; [by eapply touched_same|]. by eapply situated_tnode.
  - by apply SC.
  - by apply SC.
  - by apply SC.
  - by apply SC.
  - destruct (CopyMirror_rep _ _ _ _ _ R) as (m' & H & R' & T). exists n, m'.
    split; [done|]. split; [done|]. split; [by eapply touched_same|]. by eapply situated_tnode.
  - eapply refines_bind; [by eapply GetActivation_rep|]. intros [a v'] [a' n'] m' (Ha & Hn & R' & T).
    cbn [fst snd] in *. subst. apply refines_ret. cbn [fst snd].
    split; [done|]. split; [by eapply touched_same|]. eapply situated_tnode; [done..|]. by apply tnode_trs.
  - eapply refines_tnode; [done|]. by eapply SetlastActivation_rep.
  - eapply refines_tnode; [done|]. eapply refines_impl; [by eapply IncrementDelta_rep|].
    cbn beta. intros v' n' m' (-> & R' & T). split; [done|]. split; [done|]. by apply tnode_trs.
  - eapply refines_tnode; [done|]. eapply refines_impl; [by eapply Softmax_rep|].
    cbn beta. intros v' n' m' (-> & R' & T). split; [done|]. split; [done|]. by apply tnode_trs.
  - eapply refines_impl; [by eapply BackPropagate_rep|]. cbn beta. intros [v' ps'] n' m' (-> & R' & RP' & T).
    cbn [fst snd] in *. split; [done|]. split; [by eapply touched_same|].
    eapply situated_step; [exact ST|apply T|done|done].
  - eapply refines_tnode; [done|]. by eapply BackPropagateFirstLayer_rep.
  - eapply refines_bind; [by eapply PurturbWeight_rep|]. intros w [x n'] m' (Hn & Hx & R' & T). cbn [fst snd] in *. subst n'.
    apply refines_ret. cbn [fst snd]. split; [done|]. split; [by eapply touched_same|]. by eapply situated_tnode.
Qed.

Lemma run_ops_rep E m c n ly v pa ns lys ps ops :
  situated m c n ly v pa ns lys ps ->
  refines (run_ops E c pa n ops m) (ref_ops (e_UseAdam E) ops v ps)
    (fun r _ m' => same_objects m m' /\ situated m' c n ly r.1 pa ns lys r.2).
Proof.
  intros ST. unfold run_ops, miter, ref_ops.
  eapply (refines_fold _ _ (fun r _ m' => same_objects m m' /\ situated m' c n ly r.1 pa ns lys r.2)).
  - intros [v1 ps1] [] m1 o _ [SO ST1]. cbn [fst snd] in *.
    eapply refines_bind_inv; [by apply run_op_rep|]. cbn beta. intros r n' m' (-> & SO' & ST').
    apply refines_ret. split; [by eapply same_objects_trans|done].
  - done.
Qed.

(** * Activations *)
Lemma ref_op_keeps_act adam o v ps v' ps' i : ref_op adam o v ps = Ok (v', ps') -> rewrites i o = false ->
  act_of v' i = act_of v i.
Proof.
  intros H Hw. assert (Hs : v_slots v' = v_slots v -> act_of v' i = act_of v i) by (unfold act_of; by intros ->).
  destruct o; cbn [ref_op rewrites] in *; try (injection H as <- <-; by apply Hs);
    try (bind_inv H; injection H as <- <-; by apply Hs).
  - destruct (ref_activate v data i0) as [[a v1]|] eqn:E; cbn [mbind res_bind] in H; [|done].
    injection H as <- <-. apply ref_activate_inv in E as (s & s' & Hs0 & -> & _).
    unfold act_of. erewrite v_set_slot_other; [done|eassumption|lia].
  - unfold ref_set_act in H. rewrite res_bind_assoc in H. bind_inv H. injection H as <- <-.
    unfold act_of. erewrite v_set_slot_other; [done|eassumption|lia].
  - unfold ref_incr in H. rewrite res_bind_assoc in H. bind_inv H.
    injection H as <- <-. destruct (negb (on a)) eqn:Eo; [done|].
    destruct (fleb (s_act a) fzero); injection E0 as <-; [done|].
    unfold act_of. destruct (decide (i0 = i)) as [->|Hne].
    + by erewrite v_set_slot_get, E by eassumption.
    + by erewrite v_set_slot_other by eassumption.
  - unfold ref_softmax in H. rewrite res_bind_assoc in H. bind_inv H. injection H as <- <-.
    destruct (negb (on a)); [done|]. injection E0 as <-.
    unfold act_of. erewrite v_set_slot_other; [done|eassumption|lia].
  - apply ref_backprop_slots in H as (s & Hs0 & E). apply sget_Ok in Hs0 as [Hi _]. unfold act_of, sget. rewrite E.
    destruct (i <? 0) eqn:?; [done|]. rewrite list_lookup_insert_ne; [done|lia].
  - unfold ref_backprop_first in H. rewrite res_bind_assoc in H. bind_inv H.
    injection H as <- <-. destruct (negb (on a)); [done|].
    bind_inv E0. injection E0 as <-. rename a1 into a0.
    assert (E' : v_slots a0 = v_slots v).
    { eapply (foldM_pres (fun v0 => v_slots v0 = v_slots v)); [eassumption|done|].
      intros v1 p v2 H1 H2. apply ref_grad_slots in H2. congruence. }
    assert (E2 : v_slots (ref_finish adam (fadd lr (s_delta a)) a0 i0 (s_delta a)) = <[Z.to_nat i0 := mkSlot fzero fzero fzero]> (v_slots v))
      by (unfold ref_finish; destruct adam; cbn; by rewrite E').
    apply sget_Ok in E as [Hi _]. unfold act_of, sget. rewrite E2.
    destruct (i <? 0) eqn:?; [done|]. rewrite list_lookup_insert_ne; [done|lia].
Qed.

Lemma ref_ops_keeps_act adam ops v ps v' ps' i : ref_ops adam ops v ps = Ok (v', ps') ->
  Forall (fun o => rewrites i o = false) ops -> act_of v' i = act_of v i.
Proof.
  unfold ref_ops. intros H HF. revert v ps H. induction HF as [|o ops Ho HF IH]; intros v ps; cbn [foldM].
  - by intros [= <- <-].
  - cbn [fst snd]. destruct (ref_op adam o v ps) as [[v1 ps1]|] eqn:E; cbn [mbind res_bind]; [|done].
    intros H. rewrite (IH _ _ H). by eapply ref_op_keeps_act.
Qed.

Lemma run_ops_inv E m c n ly v pa ns lys ps ops m' : situated m c n ly v pa ns lys ps ->
  run_ops E c pa n ops m = Ok (tt, m') ->
  exists v' ps', ref_ops (e_UseAdam E) ops v ps = Ok (v', ps') /\ same_objects m m' /\ situated m' c n ly v' pa ns lys ps'.
Proof.
  intros ST H. pose proof (run_ops_rep E m c n ly v pa ns lys ps ops ST) as H'.
  destruct (ref_ops _ _ _ _) as [[v' ps']|] eqn:Er; cbn [refines] in H'; [|congruence].
  destruct H' as (a & m1 & H1 & SO & ST1). rewrite H in H1. injection H1 as <- <-. eauto 10.
Qed.
