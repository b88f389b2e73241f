(** Back-propagation through the layers. *)
From Verif.Proofs Require Export NetGrad.
From Coq Require Import Lia ZifyBool ZifyNat.
Local Open Scope Z_scope.

(** The error of a node whose slot is [s], as the program computes it. *)
Definition node_error (last : bool) (lab : list Z) (norm : float64) (v : NodeView) (s : Slot) : float64 :=
  if last then
    let act := fdiv (s_act s) (fadd norm f1em7) in
    if bool_decide (v_id v ∈ lab) then fsub (fdiv fone (f_of_Z (Z.of_nat (length lab)))) (fdiv act (f_of_Z (v_batch v)))
    else fdiv (fneg act) (f_of_Z (v_batch v))
  else s_delta s.

Lemma Ok_inj {A} (a b : A) : Ok a = Ok b -> a = b.
Proof. by intros [= ->]. Qed.
Lemma nv_set_eq nv j lv : nv_layers (nv_set nv j lv) = <[j := lv]> (nv_layers nv).
Proof. done. Qed.

Lemma backward_node_inv E num i ex lr j cur nv p nv' :
  ref_backward_node E num i ex lr (Z.of_nat j) cur nv p = Ok nv' ->
  exists lv v s norm v1 v2,
    nv_layers nv !! j = Some lv /\ 0 <= iv_index p /\ lv_nodes lv !! Z.to_nat (iv_index p) = Some v /\
    0 <= i /\ v_slots v !! Z.to_nat i = Some s /\ on s = true /\
    (Z.of_nat j = num - 1 -> is_softmax (lv_type lv) = true /\ lv_norm lv !! Z.to_nat i = Some norm) /\
    (exists s1, v1 = v_set_slot v i s1 /\ s_delta s1 = node_error (Z.of_nat j =? num - 1) (labels ex) norm v s) /\
    let d := node_error (Z.of_nat j =? num - 1) (labels ex) norm v s in
    let lv' := lv_set_nodes lv (<[Z.to_nat (iv_index p) := ref_finish (e_UseAdam E) (if bool_decide (j = 0%nat) then fadd lr d else fmul lr d) v2 i d]> (lv_nodes lv)) in
    (j = 0%nat -> foldM (fun v p => ref_grad (e_UseAdam E) lr v (iv_index p) (fmul d (iv_value p))) v1 (features ex) = Ok v2 /\
              nv' = nv_set nv 0 lv') /\
    (forall j0, j = S j0 -> exists pv ps, nv_layers nv !! j0 = Some pv /\
       foldM (ref_backprop_step (e_UseAdam E) lr i) (v1, lv_nodes pv) cur = Ok (v2, ps) /\
       nv' = nv_set (nv_set nv j lv') j0 (lv_set_nodes pv ps)).
Proof.
  unfold ref_backward_node. intros H. binv H as lv E1. binv H as v E2. binv H as v1 E3.
  apply sget_Ok in E1 as [_ E1]. rewrite Nat2Z.id in E1. apply sget_Ok in E2 as [Hp0 E2].
  assert (HV : exists s norm, 0 <= i /\ (exists s1, v1 = v_set_slot v i s1 /\ v_slots v !! Z.to_nat i = Some s /\ on s1 = on s /\
      (on s1 = true -> s_delta s1 = node_error (Z.of_nat j =? num - 1) (labels ex) norm v s)) /\
      (Z.of_nat j = num - 1 -> is_softmax (lv_type lv) = true /\ lv_norm lv !! Z.to_nat i = Some norm)).
  { destruct (Z.of_nat j =? num - 1) eqn:Ej.
    - destruct (is_softmax (lv_type lv)) eqn:Es; cbn [negb] in E3; [|done]. binv E3 as x Ex. apply sget_Ok in Ex as [Hi Ex].
      unfold ref_softmax in E3. binv E3 as s E4. apply sget_Ok in E4 as [_ E4]. destruct (on s) eqn:Eo; cbn [negb] in E3; [|done].
      apply Ok_inj in E3 as <-. exists s, x. split; [done|]. split; [|done]. eexists. split; [reflexivity|]. split; [done|].
      split; [unfold on; cbn [s_active]; reflexivity|]. reflexivity.
    - injection E3 as <-. 
      assert (HS : exists s, 0 <= i /\ v_slots v !! Z.to_nat i = Some s).
      { destruct (negb (Z.of_nat j =? 0)).
        - binv H as pv E4. binv H as [v2 ps] E5. unfold ref_backprop in E5. binv E5 as s E6. apply sget_Ok in E6. eauto.
        - binv H as v2 E5. unfold ref_backprop_first in E5. binv E5 as s E6. apply sget_Ok in E6. eauto. }
      destruct HS as (s & Hi & Hs). exists s, fzero. split; [done|]. split; [|lia]. exists s. split; [by rewrite set_slot_id|]. done. }
  destruct HV as (s & norm & Hi & (s1 & -> & Hs & Hon & Hd) & Hsm).
  assert (HG : sget (v_slots (v_set_slot v i s1)) i = Ok s1).
  { apply sget_Ok. split; [done|]. cbn. apply list_lookup_insert. by eapply lookup_lt_Some. }
  destruct (Z.of_nat j =? 0) eqn:Ej0; cbn [negb] in H.
  - assert (j = 0%nat) as -> by lia. rewrite bool_decide_eq_true_2 by done. binv H as v3 E4. injection H as <-.
    unfold ref_backprop_first in E4. rewrite HG in E4. cbn [mbind res_bind] in E4. destruct (on s1) eqn:Eo; cbn [negb] in E4; [|done].
    binv E4 as v2 E5. injection E4 as <-. specialize (Hd eq_refl).
    exists lv, v, s, norm, (v_set_slot v i s1), v2. rewrite <- Hd. do 7 (split; [done|]). split; [by exists s1|].
    cbn zeta. split; [|done]. intros _. split; [done|]. by rewrite Nat2Z.id.
  - destruct j as [|j0]; [lia|]. rewrite bool_decide_eq_false_2 by done. binv H as pv E4. binv H as [v3 ps] E5. injection H as <-.
    apply sget_Ok in E4 as [_ E4]. replace (Z.to_nat (Z.of_nat (S j0) - 1)) with j0 in * by lia.
    unfold ref_backprop in E5. rewrite HG in E5. cbn [mbind res_bind] in E5. destruct (on s1) eqn:Eo; cbn [negb] in E5; [|done].
    binv E5 as [v2 ps'] E6. injection E5 as <- <-. specialize (Hd eq_refl).
    exists lv, v, s, norm, (v_set_slot v i s1), v2. rewrite <- Hd. do 7 (split; [done|]). split; [by exists s1|].
    cbn zeta. split; [done|]. intros j1 [= <-]. exists pv, ps'. split; [done|]. split; [done|]. by rewrite Nat2Z.id.
Qed.

Lemma finish_off adam step v i d s : v_slots (ref_finish adam step v i d) !! Z.to_nat i = Some s -> on s = false.
Proof.
  intros Hs. unfold ref_finish in Hs. cbn [v_slots v_set_slot] in Hs. match type of Hs with <[_ := _]> ?l !! _ = _ => destruct (decide (Z.to_nat i < length l)%nat) as [Hlt|Hge] end.
  - rewrite list_lookup_insert in Hs by done. injection Hs as <-. apply off_slot0.
  - rewrite list_insert_ge in Hs by lia. apply lookup_lt_Some in Hs. lia.
Qed.
(** A node back-propagated twice for one input is an error, so the active nodes of a layer are distinct. *)
Lemma back_layer_NoDup E num i ex lr j cur next nv nv' :
  foldM (ref_backward_node E num i ex lr (Z.of_nat j) cur) nv next = Ok nv' -> NoDup (map iv_index next).
Proof.
  intros H.
  set (P := fun (pre : list Pair) (nv : NetView) => NoDup (map iv_index pre) /\
    forall p lv v s, p ∈ pre -> nv_layers nv !! j = Some lv -> lv_nodes lv !! Z.to_nat (iv_index p) = Some v -> v_slots v !! Z.to_nat i = Some s -> on s = false).
  assert (HP : P next nv'); [|by destruct HP]. revert H. apply foldM_keep.
  - split; [by constructor|]. by intros p lv v s Hp%elem_of_nil.
  - intros pre p nv1 nv2 [H1 H2] _ H.
    apply backward_node_inv in H as (lv & v & s & norm & v1 & v2 & EL & Hp0 & EV & Hi & ES & Hon & _ & (s1 & -> & _) & H0 & HS). cbn zeta in *.
    assert (Hnew : exists vf, nv_layers nv2 !! j = Some (lv_set_nodes lv (<[Z.to_nat (iv_index p) := vf]> (lv_nodes lv))) /\
       (forall s, v_slots vf !! Z.to_nat i = Some s -> on s = false)).
    { destruct j as [|j0].
      - destruct (H0 eq_refl) as [_ ->]. eexists. split; [|apply finish_off]. apply list_lookup_insert. exact (lookup_lt_Some _ _ _ EL).
      - destruct (HS _ eq_refl) as (pv & ps & Epv & _ & ->). eexists. split; [|apply finish_off].
        cbn [nv_layers nv_set]. rewrite list_lookup_insert_ne by lia. apply list_lookup_insert. exact (lookup_lt_Some _ _ _ EL). }
    destruct Hnew as (vf & ELf & Hoff).
    split.
    + rewrite map_app. cbn [map]. apply NoDup_app. split; [done|]. split; [|by apply NoDup_singleton].
      intros x Hx Hx'. apply elem_of_list_singleton in Hx' as ->. apply elem_of_list_fmap in Hx as (q & Hq & Hin).
      assert (on s = false); [|congruence]. eapply (H2 q); [done|done|by rewrite <- Hq|done].
    + intros q lv' v' s' Hq ELf' Ev' Es'. rewrite ELf in ELf'. injection ELf' as <-. cbn in Ev'.
      destruct (decide (Z.to_nat (iv_index q) = Z.to_nat (iv_index p))) as [Heq|Hne].
      * rewrite Heq, list_lookup_insert in Ev' by (by eapply lookup_lt_Some). injection Ev' as <-. by apply Hoff.
      * rewrite list_lookup_insert_ne in Ev' by done. apply elem_of_app in Hq as [Hq| ->%elem_of_list_singleton]; [|done].
        by eapply (H2 q).
Qed.

(** * One layer *)
(** The error passed on to the input node [q] by the nodes [next], on top of [e]. *)
Definition passed_on (vs : list NodeView) (err : Pair -> float64) (next : list Pair) (q : Pair) (e : float64) : float64 :=
  if fleb (iv_value q) fzero then e
  else fold_left (fun acc p => fadd acc (fmul (err p) (weight_of vs (iv_index p) (iv_index q)))) next e.

Record back_layer (adam : bool) (lr : float64) (i : Z) (j : nat) (cur next : list Pair) (err : Pair -> float64)
    (lv0 : LayerView) (pv0 : option LayerView) (L0 L : list LayerView) : Prop := mkBackLayer {
  bl_len : length L = length L0;
  bl_other : forall j', j' <> j -> S j' <> j -> L !! j' = L0 !! j';
  bl_this : exists vs, L !! j = Some (lv_set_nodes lv0 vs) /\ length vs = length (lv_nodes lv0) /\
    (forall p v, p ∈ next -> lv_nodes lv0 !! Z.to_nat (iv_index p) = Some v ->
       vs !! Z.to_nat (iv_index p) = Some (v_set_slot (gradient adam lr (bool_decide (j = 0%nat)) cur (err p) v) i slot0)) /\
    (forall k, Z.of_nat k ∉ map iv_index next -> vs !! k = lv_nodes lv0 !! k);
  bl_prev : forall j0, j = S j0 -> exists pv ps, pv0 = Some pv /\ L !! j0 = Some (lv_set_nodes pv ps) /\ length ps = length (lv_nodes pv) /\
    (forall q v e, q ∈ cur -> lv_nodes pv !! Z.to_nat (iv_index q) = Some v -> v_slots v !! Z.to_nat i = Some (mkSlot fone (iv_value q) e) ->
       ps !! Z.to_nat (iv_index q) = Some (v_set_slot v i (mkSlot fone (iv_value q) (passed_on (lv_nodes lv0) err next q e)))) /\
    (forall k, Z.of_nat k ∉ map iv_index cur -> ps !! k = lv_nodes pv !! k)
}.

Lemma lv_set_nodes_id lv : lv_set_nodes lv (lv_nodes lv) = lv.
Proof. by destruct lv. Qed.
Lemma lv_set_nodes_twice lv vs vs' : lv_set_nodes (lv_set_nodes lv vs) vs' = lv_set_nodes lv vs'.
Proof. done. Qed.

Lemma back_layer_spec E num i ex lr j cur next err lv0 pv0 nv nv' :
  foldM (ref_backward_node E num i ex lr (Z.of_nat j) cur) nv next = Ok nv' ->
  NoDup (map iv_index next) -> (forall j0, j = S j0 -> NoDup (map iv_index cur)) ->
  nv_layers nv !! j = Some lv0 -> (forall j0, j = S j0 -> nv_layers nv !! j0 = pv0) ->
  (j = 0%nat -> cur = features ex) ->
  (forall p, p ∈ next -> 0 <= iv_index p /\ exists v s, lv_nodes lv0 !! Z.to_nat (iv_index p) = Some v /\ v_slots v !! Z.to_nat i = Some s /\
     forall norm, (Z.of_nat j = num - 1 -> lv_norm lv0 !! Z.to_nat i = Some norm) -> err p = node_error (Z.of_nat j =? num - 1) (labels ex) norm v s) ->
  (forall j0 pv, j = S j0 -> pv0 = Some pv -> forall q, q ∈ cur -> 0 <= iv_index q /\ exists e, slot_at (lv_nodes pv) (iv_index q) i = Some (mkSlot fone (iv_value q) e)) ->
  (next = [] -> forall j0, j = S j0 -> is_Some pv0) ->
  back_layer (e_UseAdam E) lr i j cur next err lv0 pv0 (nv_layers nv) (nv_layers nv') /\ nv_seeds nv' = nv_seeds nv.
Proof.
  intros H HND HNC EL0 EP0 Hcur HN HC Hpv0.
  assert (Hpv : forall j0, j = S j0 -> is_Some pv0).
  { intros j0 Hj0. destruct next as [|p next]; [by eapply Hpv0|]. cbn [foldM] in H.
    destruct (ref_backward_node _ _ _ _ _ _ _ _ _) as [nv1|] eqn:E1; [|done].
    apply backward_node_inv in E1 as (lv & v & s & norm & v1 & v2 & _ & _ & _ & _ & _ & _ & _ & _ & _ & HS). cbn zeta in HS.
    destruct (HS _ Hj0) as (pv & ps & Epv & _). rewrite (EP0 _ Hj0) in Epv. by eexists. }
  clear Hpv0.
  set (P := fun (pre : list Pair) (nv1 : NetView) =>
     back_layer (e_UseAdam E) lr i j cur pre err lv0 pv0 (nv_layers nv) (nv_layers nv1) /\ nv_seeds nv1 = nv_seeds nv).
  assert (HP : P next nv'); [|exact HP]. revert H. apply foldM_keep.
  - split; [|done]. constructor; try done.
    + exists (lv_nodes lv0). rewrite lv_set_nodes_id. split; [done|]. split; [done|]. split; [|done]. by intros p v Hp%elem_of_nil.
    + intros j0 Hj0. destruct (Hpv _ Hj0) as [pv Epv]. exists pv, (lv_nodes pv). split; [done|]. rewrite lv_set_nodes_id, (EP0 _ Hj0).
      split; [done|]. split; [done|]. split; [|done]. intros q v e Hq Hv He. rewrite Hv. f_equal. unfold passed_on. cbn [fold_left].
      assert (HH : forall b : bool, (if b then e else e) = e) by (by intros []). rewrite HH. by rewrite set_slot_id.
  - intros pre p nv1 nv2 [HB Hseed] Hpre H.
    assert (Hpin : p ∈ next) by (destruct Hpre as [post ->]; rewrite !elem_of_app; left; right; by left).
    assert (Hnin : iv_index p ∉ map iv_index pre).
    { destruct Hpre as [post ->]. rewrite !map_app in HND. apply NoDup_app in HND as [HND _]. apply NoDup_app in HND as (_ & HND & _).
      intros Hin. eapply HND; [exact Hin|]. by left. }
    apply backward_node_inv in H as (lv & v & s & norm & v1 & v2 & EL & Hp0 & EV & Hi & ES & Hon & Hnorm & (s1 & -> & Hd) & H0 & HS). cbn zeta in *.
    destruct HB as [B1 B2 (vs & B3 & B3l & B3i & B3o) B4]. rewrite B3 in EL. injection EL as <-. cbn [lv_nodes lv_set_nodes lv_type lv_norm] in *.
    rewrite B3o in EV by (by rewrite Z2Nat.id).
    destruct (HN p Hpin) as (_ & v' & s' & Ev' & Es' & Herr). rewrite EV in Ev'. injection Ev' as <-. rewrite ES in Es'. injection Es' as <-.
    specialize (Herr norm). rewrite <- Herr in * by (intros; by apply Hnorm). clear Herr Hnorm.
    assert (EV1 : vs !! Z.to_nat (iv_index p) = Some v) by (rewrite B3o; [done|by rewrite Z2Nat.id]).
    assert (Hslot : exists s0, v_slots (v_set_slot v i s1) !! Z.to_nat i = Some s0 /\ s_delta s0 = err p).
    { exists s1. split; [|done]. cbn. apply list_lookup_insert. by eapply lookup_lt_Some. }
    (* the node itself *)
    assert (Hthis : v2 = taught (e_UseAdam E) lr cur (err p) (v_set_slot v i s1) ->
      exists vs', lv_set_nodes (lv_set_nodes lv0 vs) (<[Z.to_nat (iv_index p) := ref_finish (e_UseAdam E) (if bool_decide (j = 0%nat) then fadd lr (err p) else fmul lr (err p)) v2 i (err p)]> vs) = lv_set_nodes lv0 vs' /\
       length vs' = length (lv_nodes lv0) /\
       (forall p' v', p' ∈ pre ++ [p] -> lv_nodes lv0 !! Z.to_nat (iv_index p') = Some v' ->
         vs' !! Z.to_nat (iv_index p') = Some (v_set_slot (gradient (e_UseAdam E) lr (bool_decide (j = 0%nat)) cur (err p') v') i slot0)) /\
       (forall k, Z.of_nat k ∉ map iv_index (pre ++ [p]) -> vs' !! k = lv_nodes lv0 !! k)).
    { intros ->. eexists. split; [reflexivity|]. split; [by rewrite insert_length|]. split.
      - intros p' w Hp' Hw. apply elem_of_app in Hp' as [Hp'| ->%elem_of_list_singleton].
        + rewrite list_lookup_insert_ne; [by apply B3i|]. intros Heq. apply Hnin. apply elem_of_list_fmap. exists p'. split; [|done].
          assert (0 <= iv_index p'); [|lia]. apply HN. destruct Hpre as [post ->]. rewrite !elem_of_app. tauto.
        + rewrite list_lookup_insert by (by eapply lookup_lt_Some). rewrite EV in Hw. injection Hw as <-.
          rewrite finish_taught, gradient_set_slot, set_slot_twice. done.
      - intros k Hk. rewrite map_app in Hk. cbn [map] in Hk. apply not_elem_of_app in Hk as [Hk1 Hk2].
        rewrite list_lookup_insert_ne; [by apply B3o|]. intros <-. apply Hk2. rewrite Z2Nat.id by done. by left. }
    destruct j as [|j0].
    + destruct (H0 eq_refl) as [HF ->]. apply first_fold in HF. rewrite <- (Hcur eq_refl) in HF.
      destruct (Hthis HF) as (vs' & Hvs' & Hl' & Hi' & Ho'). clear Hthis. rewrite Hvs'.
      split; [|done]. cbn [nv_layers nv_set]. constructor.
      * by rewrite insert_length.
      * intros j' Hj' Hj''. rewrite list_lookup_insert_ne by done. by apply B2.
      * exists vs'. split; [apply list_lookup_insert; by eapply lookup_lt_Some|done].
      * done.
    + destruct (HS _ eq_refl) as (pv1 & ps1 & Epv1 & HF & ->). clear HS H0.
      destruct (B4 _ eq_refl) as (pv & ps & -> & Eps & Lps & B4i & B4o). rewrite Eps in Epv1. injection Epv1 as <-. cbn [lv_nodes lv_set_nodes] in HF.
      eapply (back_fold _ _ _ (err p) (fun q => weight_of (lv_nodes lv0) (iv_index p) q)) in HF as [-> [U1 U2 U3]]; [|by eapply HNC|done|].
      * destruct (Hthis eq_refl) as (vs' & Hvs' & Hl' & Hi' & Ho'). clear Hthis. rewrite Hvs'.
        split; [|done]. cbn [nv_layers nv_set]. constructor.
        -- by rewrite !insert_length.
        -- intros j' Hj' Hj''. rewrite !list_lookup_insert_ne by lia. by apply B2.
        -- exists vs'. split; [|done]. rewrite list_lookup_insert_ne by lia. apply list_lookup_insert. by eapply lookup_lt_Some.
        -- intros j1 [= <-]. exists pv, ps1. split; [done|]. split; [|split; [|split]].
           ++ rewrite list_lookup_insert; [done|]. rewrite insert_length. by eapply lookup_lt_Some.
           ++ lia.
           ++ intros q w e Hq Hw He. pose proof (B4i _ _ _ Hq Hw He) as Hps.
              erewrite (U2 q) by first [done|exact Hps|cbn; apply list_lookup_insert; by eapply lookup_lt_Some].
              rewrite set_slot_twice. do 3 f_equal. unfold passed_on. destruct (fleb (iv_value q) fzero); [done|]. by rewrite fold_left_app.
           ++ intros k Hk. rewrite U3 by done. by apply B4o.
      * intros q Hq. destruct (HC _ _ eq_refl eq_refl q Hq) as (Hq0 & e & He). split; [done|]. split.
        -- unfold slot_at in He. destruct (lv_nodes pv !! Z.to_nat (iv_index q)) as [w|] eqn:Ew; [|done]. cbn [mbind option_bind] in He.
           eexists. unfold slot_at. rewrite (B4i _ _ _ Hq Ew He). cbn. apply list_lookup_insert. by eapply lookup_lt_Some.
        -- intros x Hx. unfold weight_of. rewrite EV. cbn in Hx |- *. by rewrite Hx.
Qed.
