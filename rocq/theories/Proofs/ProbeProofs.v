(** The debugging calls of a node: GetGradient and PurturbWeight. *)
From Verif.Proofs Require Import NodeMore NodeOps SrpProofs.
From Verif.Spec Require Import BackpropSpec.
From Coq Require Import Lia.
Local Open Scope Z_scope.

Lemma fneg_fmul x y : fmul (fneg x) y = fneg (fmul x y).
Proof.
  unfold fmul, fneg. destruct x as [a|a| |a m e], y as [b|b| |b m' e']; try done; try (by destruct a, b).
  cbn [SFopp SFmul]. rewrite <- negb_xorb_l. apply binary_round_aux_neg.
Qed.
Lemma fneg_fneg x : fneg (fneg x) = x.
Proof. destruct x as [a|a| |a m e]; cbn; rewrite ?negb_involutive; done. Qed.
Lemma opposite d x : fneg (fmul (fneg d) x) = fmul d x.
Proof. by rewrite fneg_fmul, fneg_fneg. Qed.

Lemma gradient_read m c n ly v i x s : rep m c n ly v -> sget (v_slots v) i = Ok s ->
  node_GetGradient n i x m = Ok (fmul (fneg (s_delta s)) x, m).
Proof. intros R Hs. unfold node_GetGradient. erewrite bindM_Ok by (by eapply get_train_ok). reflexivity. Qed.
Lemma gradient_inv m c n ly v i x g m' : rep m c n ly v -> node_GetGradient n i x m = Ok (g, m') ->
  exists s, sget (v_slots v) i = Ok s /\ g = fmul (fneg (s_delta s)) x /\ m' = m.
Proof.
  intros R H. destruct (sget (v_slots v) i) as [s|q] eqn:Hs.
  - rewrite (gradient_read _ _ _ _ _ _ _ _ R Hs) in H. injection H as <- <-. eauto.
  - unfold node_GetGradient in H. erewrite bindM_Panic in H by (by eapply get_train_panic). done.
Qed.
Lemma gradient_iff m c n ly v i x : rep m c n ly v ->
  ((exists g, node_GetGradient n i x m = Ok (g, m)) <-> 0 <= i < Z.of_nat (length (v_slots v))).
Proof.
  intros R. split.
  - intros [g H]. destruct (gradient_inv _ _ _ _ _ _ _ _ _ R H) as (s & Hs & _). apply sget_Ok in Hs as [? Hs]. apply lookup_lt_Some in Hs. lia.
  - intros H. destruct (lookup_lt_is_Some_2 (v_slots v) (Z.to_nat i)) as [s Hs]; [lia|]. eexists. eapply gradient_read; [done|]. apply sget_Ok. split; [lia|done].
Qed.

Lemma gradient_hidden E m c n ly v pa ns lys ps pairs lr i k np x g n' m' :
  situated m c n ly v pa ns lys ps -> NoDup (map iv_index pairs) -> k ∈ map iv_index pairs ->
  ns !! Z.to_nat k = Some np -> node_GetLastActivation np i m = Ok (x, m) -> node_GetGradient n i x m = Ok (g, m) ->
  node_BackPropagate E c n pa pairs lr i m = Ok (n', m') ->
  exists v', rep m' c n ly v' /\
    (if e_UseAdam E then v_w v' = v_w v /\ exists t, v_t v !! Z.to_nat k = Some t /\ v_t v' !! Z.to_nat k = Some (fadd t (fneg g))
     else v_t v' = v_t v /\ exists w, v_w v !! Z.to_nat k = Some w /\ v_w v' !! Z.to_nat k = Some (fadd w (fmul lr (fneg g)))).
Proof.
  intros HS ND Hk Hnp Hx Hg HB. pose proof (sit_rep _ _ _ _ _ _ _ _ _ HS) as R.
  destruct (gradient_inv _ _ _ _ _ _ _ _ _ R Hg) as (s & Hs & -> & _).
  assert (OK : backprop_ok (e_UseAdam E) v ps (map iv_index pairs) i) by (apply (backprop_returns_iff E m c n ly v pa ns lys ps pairs lr i HS); eauto).
  destruct OK as [HA HP]. destruct (HP k Hk) as (K0 & (pv & Hpv & sp & Hsp & _) & KW & KT).
  assert (EX : x = act_at ps i k).
  { pose proof (sit_reps _ _ _ _ _ _ _ _ _ HS) as RS. destruct (lookup_lt_is_Some_2 lys (Z.to_nat k)) as [ly' Hly']; [rewrite (reps_l1 _ _ _ _ _ RS); by eapply lookup_lt_Some|].
    pose proof (reps_at _ _ _ _ _ RS _ _ _ _ Hnp Hly' Hpv) as RP. pose proof (GetLastActivation_rep m c np ly' pv RP i) as HG. rewrite Hsp in HG.
    destruct HG as (a & m1 & HG & _ & ->). rewrite Hx in HG. injection HG as -> _. unfold act_at. rewrite Hpv. apply sget_Ok in Hsp as [_ Hsp]. by rewrite Hsp. }
  rewrite opposite. destruct (e_UseAdam E) eqn:EA.
  - destruct (backprop_adam E m c n ly v pa ns lys ps pairs lr i s EA HS Hs ND) as (m1 & H1 & S1); [by split|]. rewrite HB in H1. injection H1 as -> ->.
    eexists. split; [exact (sit_rep _ _ _ _ _ _ _ _ _ S1)|]. cbn [node_after_adam v_w v_t]. split; [done|].
    destruct (lookup_lt_is_Some_2 (v_t v) (Z.to_nat k)) as [t Ht]; [specialize (KT eq_refl); lia|]. exists t. split; [done|].
    rewrite upd_set_lookup, Ht. cbn. rewrite Z2Nat.id by done. rewrite bool_decide_true by done. by rewrite EX.
  - destruct (backprop_plain E m c n ly v pa ns lys ps pairs lr i s EA HS Hs ND) as (m1 & H1 & S1); [by split|]. rewrite HB in H1. injection H1 as -> ->.
    eexists. split; [exact (sit_rep _ _ _ _ _ _ _ _ _ S1)|]. cbn [node_after_plain v_w v_t]. split; [done|].
    destruct (lookup_lt_is_Some_2 (v_w v) (Z.to_nat k)) as [w Hw]; [lia|]. exists w. split; [done|].
    rewrite upd_set_lookup, Hw. cbn. rewrite Z2Nat.id by done. rewrite bool_decide_true by done. by rewrite EX.
Qed.

(** The first layer. *)
Lemma add_at_Ok xs i d ys : add_at xs i d = Ok ys -> exists x, 0 <= i /\ xs !! Z.to_nat i = Some x /\ ys = <[Z.to_nat i := fadd x d]> xs.
Proof.
  unfold add_at. destruct (sget xs i) as [x|] eqn:Hx; cbn [mbind res_bind]; [|done]. apply sget_Ok in Hx as [? Hx].
  intros HS. apply sset_Ok in HS as [_ ->]. eauto.
Qed.
Lemma first_nonneg adam lr d pairs v v' k x :
  foldM (fun v p => ref_grad adam lr v (iv_index p) (fmul d (iv_value p))) v pairs = Ok v' -> mkPair k x ∈ pairs -> 0 <= k.
Proof.
  revert v. induction pairs as [|p pairs IH]; intros v H Hin; [by apply elem_of_nil in Hin|]. cbn [foldM] in H.
  destruct (ref_grad _ _ _ _ _) as [v2|] eqn:E2; cbn [mbind res_bind] in H; [|done]. apply elem_of_cons in Hin as [<-|Hin]; [|by eapply IH].
  unfold ref_grad in E2. cbn [iv_index] in E2. destruct adam; (destruct (add_at _ _ _) as [t|] eqn:EA; [|done]); destruct (add_at_Ok _ _ _ _ EA) as (? & ? & _); lia.
Qed.
Lemma first_fold adam lr d pairs v v' : NoDup (map iv_index pairs) ->
  foldM (fun v p => ref_grad adam lr v (iv_index p) (fmul d (iv_value p))) v pairs = Ok v' ->
  (if adam then v_w v' = v_w v else v_t v' = v_t v) /\
  (forall j, 0 <= j -> j ∉ map iv_index pairs -> (if adam then v_t v' else v_w v') !! Z.to_nat j = (if adam then v_t v else v_w v) !! Z.to_nat j) /\
  (forall k x, mkPair k x ∈ pairs -> exists y, (if adam then v_t v else v_w v) !! Z.to_nat k = Some y /\
     (if adam then v_t v' else v_w v') !! Z.to_nat k = Some (if adam then fadd y (fmul d x) else fadd y (fmul lr (fmul d x)))).
Proof.
  revert v. induction pairs as [|[k0 x0] pairs IH]; intros v ND H.
  - cbn in H. injection H as <-. split; [by destruct adam|]. split; [done|]. intros k x Hin. by apply elem_of_nil in Hin.
  - cbn [map iv_index] in ND. apply NoDup_cons in ND as [N1 ND]. cbn [foldM iv_index iv_value] in H.
    destruct (ref_grad adam lr v k0 (fmul d x0)) as [v1|] eqn:E1; cbn [mbind res_bind] in H; [|done]. destruct (IH v1 ND H) as (I1 & I2 & I3).
    assert (H1 : (if adam then v_w v1 = v_w v else v_t v1 = v_t v) /\ exists y, 0 <= k0 /\ (if adam then v_t v else v_w v) !! Z.to_nat k0 = Some y /\
      (if adam then v_t v1 else v_w v1) = <[Z.to_nat k0 := if adam then fadd y (fmul d x0) else fadd y (fmul lr (fmul d x0))]> (if adam then v_t v else v_w v)).
    { unfold ref_grad in E1. destruct adam.
      - destruct (add_at (v_t v) k0 _) as [t|] eqn:EA; cbn [mbind res_bind] in E1; [|done]. injection E1 as <-. destruct (add_at_Ok _ _ _ _ EA) as (y & ? & ? & ->). split; [done|]. eauto.
      - destruct (add_at (v_w v) k0 _) as [t|] eqn:EA; cbn [mbind res_bind] in E1; [|done]. injection E1 as <-. destruct (add_at_Ok _ _ _ _ EA) as (y & ? & ? & ->). split; [done|]. eauto. }
    destruct H1 as (W1 & y & K0 & Hy & HT). split; [destruct adam; congruence|]. split.
    + intros j J0 Hj. cbn [map iv_index] in Hj. rewrite I2; [|done|set_solver]. rewrite HT. apply list_lookup_insert_ne. intros E. apply Hj. apply elem_of_cons. left. lia.
    + intros k x Hin. apply elem_of_cons in Hin as [[= -> ->]|Hin].
      * exists y. split; [done|]. rewrite I2 by done. rewrite HT. apply list_lookup_insert. by eapply lookup_lt_Some.
      * destruct (I3 k x Hin) as (y' & Hy' & R'). exists y'. split; [|done]. rewrite HT in Hy'. rewrite list_lookup_insert_ne in Hy'; [done|].
        intros E. apply N1. apply elem_of_list_fmap. destruct (decide (k = k0)) as [->|NE]; [by exists (mkPair k0 x)|]. exfalso.
        pose proof (first_nonneg _ _ _ _ _ _ _ _ H Hin). lia.
Qed.
Lemma gradient_first E m c n ly v pairs lr i k x g n' m' :
  rep m c n ly v -> ly_ok ly -> NoDup (map iv_index pairs) -> mkPair k x ∈ pairs -> node_GetGradient n i x m = Ok (g, m) ->
  node_BackPropagateFirstLayer E c n pairs lr i m = Ok (n', m') ->
  exists v', rep m' c n ly v' /\
    (if e_UseAdam E then v_w v' = v_w v /\ exists t, v_t v !! Z.to_nat k = Some t /\ v_t v' !! Z.to_nat k = Some (fadd t (fneg g))
     else v_t v' = v_t v /\ exists w, v_w v !! Z.to_nat k = Some w /\ v_w v' !! Z.to_nat k = Some (fadd w (fmul lr (fneg g)))).
Proof.
  intros R OK ND Hk Hg HB. destruct (gradient_inv _ _ _ _ _ _ _ _ _ R Hg) as (s & Hs & -> & _). rewrite opposite.
  pose proof (BackPropagateFirstLayer_rep E m c n ly v pairs lr i R OK) as H'.
  destruct (ref_backprop_first _ _ _ _ _) as [v'|] eqn:Er; cbn [refines] in H'; [|congruence].
  destruct H' as (a & m1 & H1 & _ & R' & _). rewrite HB in H1. injection H1 as -> ->. exists v'. split; [done|].
  unfold ref_backprop_first in Er. rewrite Hs in Er. cbn [mbind res_bind] in Er. destruct (negb (on s)); [done|].
  destruct (foldM _ _ _) as [v1|] eqn:EF; cbn [mbind res_bind] in Er; [|done]. injection Er as <-.
  destruct (first_fold _ _ _ _ _ _ ND EF) as (F1 & _ & F3). destruct (F3 k x Hk) as (y & Hy & Hy').
  unfold ref_finish. destruct (e_UseAdam E); cbn [v_set_slot v_set_biases v_w v_t]; eauto.
Qed.

(** PurturbWeight *)
Lemma perturb m c n ly v k d w : rep m c n ly v -> ly_ok ly -> 0 <= k -> v_w v !! Z.to_nat k = Some w ->
  exists m', node_PurturbWeight c n k d m = Ok ((fadd w d, n), m') /\ rep m' c n ly (v_set_w v (<[Z.to_nat k := fadd w d]> (v_w v))).
Proof.
  intros R OK K0 Hw. pose proof (PurturbWeight_rep m c n ly v k d R OK) as H. assert (HA : add_at (v_w v) k d = Ok (<[Z.to_nat k := fadd w d]> (v_w v))).
  { unfold add_at. rewrite (proj2 (sget_Ok (v_w v) k w)) by done. cbn [mbind res_bind]. apply sset_Ok. apply lookup_lt_Some in Hw. split; [lia|done]. }
  rewrite HA in H. destruct H as ([w' n1] & m' & H & H1 & H2 & H3 & _). cbn [fst snd] in *. subst n1. exists m'. split; [|done]. rewrite H. do 3 f_equal.
  apply sget_Ok in H2 as [_ H2]. rewrite list_lookup_insert in H2; [|by eapply lookup_lt_Some]. by injection H2.
Qed.
