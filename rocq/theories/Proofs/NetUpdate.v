(** The update after a batch: parameters, tables and hash functions. *)
From Verif.Proofs Require Export NetStep.
From Coq Require Import Lia ZifyBool ZifyNat.
Local Open Scope Z_scope.

Lemma seqZ_at N pre x : pre ++ [x] `prefix_of` seqZ 0 (Z.of_nat N) -> (length pre < N)%nat /\ x = Z.of_nat (length pre).
Proof.
  intros [q Hq]. assert (Hl : seqZ 0 (Z.of_nat N) !! length pre = Some x).
  { rewrite Hq, <- (assoc_L (++)). by apply list_lookup_middle. } apply lookup_seqZ in Hl. lia.
Qed.

(** * Adam *)
Definition adam_weights (lr : float64) (m : nat) (v v' : NodeView) : Prop :=
  (length (v_w v') = length (v_w v) /\ length (v_mom v') = length (v_mom v) /\ length (v_vel v') = length (v_vel v) /\ length (v_t v') = length (v_t v)) /\
  (forall d, (m <= d)%nat -> v_w v' !! d = v_w v !! d /\ v_mom v' !! d = v_mom v !! d /\ v_vel v' !! d = v_vel v !! d /\ v_t v' !! d = v_t v !! d) /\
  (forall d, (d < m)%nat -> exists t mo ve w, v_t v !! d = Some t /\ v_mom v !! d = Some mo /\ v_vel v !! d = Some ve /\ v_w v !! d = Some w /\
     v_t v' !! d = Some fzero /\ v_mom v' !! d = Some (adam_mom t mo) /\ v_vel v' !! d = Some (adam_vel t ve) /\
     v_w v' !! d = Some (adam_par lr (adam_mom t mo) (adam_vel t ve) w)) /\
  (v_bias v' = v_bias v /\ v_tBias v' = v_tBias v /\ v_momBias v' = v_momBias v /\ v_velBias v' = v_velBias v /\ v_mirrorBias v' = v_mirrorBias v) /\
  identity v' = identity v /\ v_slots v' = v_slots v.
Lemma adam_fold lr v v' : foldM (ref_adam_weight lr) v (seqZ 0 (Z.of_nat (length (v_t v)))) = Ok v' -> adam_weights lr (length (v_t v)) v v'.
Proof.
  intros H. set (P := fun (pre : list Z) v1 => adam_weights lr (length pre) v v1).
  assert (HP : P (seqZ 0 (Z.of_nat (length (v_t v)))) v').
  2:{ unfold P in HP. rewrite seqZ_length, Nat2Z.id in HP. done. }
  revert H. apply foldM_keep.
  - split; [done|]. split; [done|]. split; [cbn; lia|done].
  - intros pre x v1 v2 (H1 & H2 & H3 & H4 & H5 & H6) Hpre H. apply seqZ_at in Hpre as [Hlt ->].
    unfold ref_adam_weight in H. binv H as t E1. binv H as mo E2. binv H as ve E3. cbn zeta in H. binv H as w E4. binv H as moms E5. binv H as vels E6. binv H as ts E7.
    apply Ok_inj in H as <-. unfold add_at in E4. binv E4 as x E8.
    apply sget_Ok in E1 as [_ E1]. apply sget_Ok in E2 as [_ E2]. apply sget_Ok in E3 as [_ E3]. apply sget_Ok in E8 as [_ E8].
    apply sset_Ok in E4 as [_ ->]. apply sset_Ok in E5 as [_ ->]. apply sset_Ok in E6 as [_ ->]. apply sset_Ok in E7 as [_ ->].
    rewrite !Nat2Z.id in *. unfold P. rewrite app_length. cbn [length]. unfold adam_weights.
    cbn [v_w v_mom v_vel v_t v_bias v_tBias v_momBias v_velBias v_mirrorBias v_slots v_set_t v_set_vel v_set_mom v_set_w].
    rewrite !insert_length. split; [done|]. split; [|split; [|split; [done|split; [done|done]]]].
    + intros d Hd. rewrite !list_lookup_insert_ne by lia. apply H2. lia.
    + intros d Hd. destruct (decide (d = length pre)) as [->|Hne].
      * destruct (H2 (length pre)) as (K1 & K2 & K3 & K4); [lia|]. rewrite <- K1, <- K2, <- K3, <- K4.
        exists t, mo, ve, x. do 4 (split; [done|]). rewrite !list_lookup_insert by (by eapply lookup_lt_Some). done.
      * rewrite !list_lookup_insert_ne by lia. apply H3. lia.
Qed.
Lemma update_params_spec adam lr v v' : ref_update_params adam lr v = Ok v' -> updated adam lr v v'.
Proof.
  unfold ref_update_params, updated. destruct adam; [|by intros [= <-]].
  intros H. binv H as v1 E1. apply Ok_inj in H as <-. apply adam_fold in E1 as (H1 & H2 & H3 & (B1 & B2 & B3 & B4 & B5) & H5 & H6).
  constructor; cbn [ref_adam_bias v_w v_mom v_vel v_t v_bias v_tBias v_momBias v_velBias v_mirrorBias v_slots v_set_biases].
  - done.
  - intros d t mo ve w Ht Hm Hv Hw. destruct (H3 d) as (t' & mo' & ve' & w' & Ht' & Hm' & Hv' & Hw' & R); [by eapply lookup_lt_Some|].
    rewrite Ht in Ht'. rewrite Hm in Hm'. rewrite Hv in Hv'. rewrite Hw in Hw'. injection Ht' as <-. injection Hm' as <-. injection Hv' as <-. injection Hw' as <-. done.
  - rewrite B1, B2, B3, B4, B5. done.
  - done.
Qed.

(** * Entering all nodes of a layer *)
Definition insert_all (E : env) (h : hashers) (t : LSH) (ws : list (list float64)) : res LSH :=
  foldM (fun t kw => ref_insert E h t kw.2 kw.1) t (indexed ws).
Lemma indexed_snoc {A} (xs : list A) x : indexed (xs ++ [x]) = indexed xs ++ [(Z.of_nat (length xs), x)].
Proof.
  apply list_eq. intros k. apply option_eq. intros [j y]. rewrite indexed_lookup.
  destruct (decide (k < length xs)%nat) as [Hk|Hk].
  - rewrite (lookup_app_l xs) by done. rewrite (lookup_app_l (indexed xs)) by (by rewrite indexed_length). by rewrite indexed_lookup.
  - rewrite (lookup_app_r xs) by lia. rewrite (lookup_app_r (indexed xs)) by (rewrite indexed_length; lia). rewrite indexed_length.
    destruct (k - length xs)%nat as [|q] eqn:Eq; cbn.
    + assert (k = length xs) as -> by lia. split; [intros [-> [= ->]]; done|intros [= <- <-]; done].
    + split; [by intros [_ ?]|done].
Qed.
Lemma insert_all_snoc E h t ws w t1 t2 : insert_all E h t ws = Ok t1 -> ref_insert E h t1 w (Z.of_nat (length ws)) = Ok t2 ->
  insert_all E h t (ws ++ [w]) = Ok t2.
Proof. unfold insert_all. intros H1 H2. rewrite indexed_snoc, foldM_app, H1. cbn [mbind res_bind foldM]. cbn [fst snd]. by rewrite H2. Qed.

(** * One layer *)
Lemma update_layer_spec E lr sps rehash rebuild nv j nv' :
  ref_update_layer E lr sps rehash rebuild nv (Z.of_nat j) = Ok nv' ->
  exists lv sp h vs t,
    nv_layers nv !! j = Some lv /\ sps !! j = Some sp /\
    (if rebuild && fltb sp fone then
       make_hashers E (lv_hash lv) (e_mh E (nv_seeds nv)) (lv_k lv) (lv_l lv) (lv_prev lv) (nv_rng nv) = Ok (h, nv_rng nv') /\ nv_seeds nv' = S (nv_seeds nv)
     else h = lv_hash lv /\ nv_rng nv' = nv_rng nv /\ nv_seeds nv' = nv_seeds nv) /\
    Forall2 (fun v v' => ref_update_params (e_UseAdam E) lr v = Ok v') (lv_nodes lv) vs /\
    (if rehash && fltb sp fone then insert_all E h (lsh_Clear (lv_tables lv)) (map v_w vs) = Ok t else t = lv_tables lv) /\
    nv_layers nv' = <[j := mkLV (lv_type lv) vs (lv_rand lv) (lv_norm lv) (lv_k lv) (lv_l lv) (lv_prev lv) t h]> (nv_layers nv).
Proof.
  unfold ref_update_layer. intros H. binv H as lv E1. binv H as sp E2. cbn zeta in H.
  apply sget_Ok in E1 as [_ E1]. apply sget_Ok in E2 as [_ E2]. rewrite Nat2Z.id in *.
  set (rh := rehash && fltb sp fone) in *. set (rb := rebuild && fltb sp fone) in *.
  binv H as [[lv1 g] s] E3. binv H as lv2 E4. injection H as <-. cbn [nv_layers nv_rng nv_seeds].
  set (t0 := if rh then lsh_Clear (lv_tables lv) else lv_tables lv).
  assert (HH : exists h, lv1 = lv_set_hash (lv_set_tables lv t0) h /\
     (if rb then make_hashers E (lv_hash lv) (e_mh E (nv_seeds nv)) (lv_k lv) (lv_l lv) (lv_prev lv) (nv_rng nv) = Ok (h, g) /\ s = S (nv_seeds nv)
      else h = lv_hash lv /\ g = nv_rng nv /\ s = nv_seeds nv)).
  { destruct rb.
    - binv E3 as [h g1] E5. injection E3 as <- <- <-. exists h. subst t0. destruct rh; cbn in *; (split; [by destruct lv|done]).
    - injection E3 as <- <- <-. exists (lv_hash lv). subst t0. destruct rh; (split; [by destruct lv|done]). }
  destruct HH as (h & -> & HH). clear E3.
  set (P := fun (pre : list Z) (l : LayerView) => exists done_ t,
    Forall2 (fun v v' => ref_update_params (e_UseAdam E) lr v = Ok v') (take (length pre) (lv_nodes lv)) done_ /\
    (if rh then insert_all E h t0 (map v_w done_) = Ok t else t = t0) /\
    l = mkLV (lv_type lv) (done_ ++ drop (length pre) (lv_nodes lv)) (lv_rand lv) (lv_norm lv) (lv_k lv) (lv_l lv) (lv_prev lv) t h).
  assert (HP : P (seqZ 0 (Z.of_nat (length (lv_nodes lv)))) lv2).
  { revert E4. cbn [lv_nodes lv_set_hash lv_set_tables]. apply foldM_keep.
    - exists [], t0. split; [by rewrite take_0|]. split; [by destruct rh|]. done.
    - intros pre x l1 l2 (dn & t & HF & HT & ->) Hpre H. apply seqZ_at in Hpre as [Hlt ->].
      unfold ref_update_node in H. cbn [lv_nodes lv_hash lv_tables] in H. binv H as v E5. binv H as v' E6. binv H as t' E7. injection H as <-.
      apply sget_Ok in E5 as [_ E5]. rewrite Nat2Z.id in E5.
      assert (Hdn : length dn = length pre) by (rewrite <- (Forall2_length _ _ _ HF), take_length; lia).
      rewrite lookup_app_r in E5 by lia. rewrite lookup_drop in E5. replace (length pre + (length pre - length dn))%nat with (length pre) in E5 by lia.
      unfold P. rewrite app_length. cbn [length]. exists (dn ++ [v']), t'. split; [|split].
      + replace (length pre + 1)%nat with (S (length pre)) by lia. erewrite take_S_r by exact E5. apply Forall2_app; [done|]. by constructor.
      + destruct rh; [|injection E7 as <-; done]. rewrite map_app. cbn [map]. eapply insert_all_snoc; [done|].
        by rewrite map_length, Hdn.
      + unfold lv_set_tables, lv_set_nodes. cbn. f_equal. rewrite Nat2Z.id. rewrite (drop_S _ _ _ E5).
        replace (length pre) with (length dn + 0)%nat at 1 by lia. rewrite insert_app_r. cbn.
        replace (length pre + 1)%nat with (S (length pre)) by lia. by rewrite <- (assoc_L (++)). }
  destruct HP as (dn & t & HF & HT & ->). rewrite seqZ_length, Nat2Z.id in *. rewrite firstn_all in HF. rewrite drop_all, app_nil_r.
  exists lv, sp, h, dn, t. split; [done|]. split; [done|]. split; [done|]. split; [done|]. split; [|done].
  revert HT. subst t0 rh. by destruct (rehash && fltb sp fone).
Qed.
