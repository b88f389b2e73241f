(** Back-propagation, the parameter update and ProcessInput have the reference effect on the content
    of the network. *)
From Verif.Proofs Require Export NetQuery.
From Coq Require Import Lia ZifyBool ZifyNat.

Section Train.
  Context {P : mem -> Prop} (E : env) (c : Z) (arr : nat) (lls : list LayerLay) (LO : lays_ok lls) {ST : Stable lls P}.
  Notation NR m nv := (net_inv P m c arr lls nv).

  Lemma net_two m m' nv j k ll llk lv lvk i n ly v' ps :
    NR m nv -> j <> k -> lls !! j = Some ll -> lls !! k = Some llk ->
    nv_layers nv !! j = Some lv -> nv_layers nv !! k = Some lvk ->
    ll_ns ll !! i = Some n -> ll_lys ll !! i = Some ly ->
    rep m' c n ly v' -> reps m' c (ll_ns llk) (ll_lys llk) ps ->
    touched (ly_trs ly ++ concat (map ly_trs (ll_lys llk))) [ly_base ly] (ly_slices ly) m m' ->
    NR m' (nv_set (nv_set nv j (lv_set_nodes lv (<[i := v']> (lv_nodes lv)))) k (lv_set_nodes lvk ps)).
  Proof.
    intros R Hjk Hll Hllk Hlv Hlvk Hn Hly R' RP T.
    assert (Hin : ly ∈ ll_lys ll) by (by eapply elem_of_list_lookup_2).
    assert (HN : forall x llx a, lls !! x = Some llx -> ll_norm llx = Some a -> m_f m' !! a = m_f m !! a).
    { intros x llx a Hx Ha. eapply touched_array; [exact T|]. intros s Hs. by eapply (lo_slices _ LO x j). }
    assert (HA : forall x llx y lyx, lls !! x = Some llx -> x <> k -> ll_lys llx !! y = Some lyx -> (x, y) <> (j, i) ->
      avoids (ly_trs ly ++ concat (map ly_trs (ll_lys llk))) [ly_base ly] (ly_slices ly) lyx).
    { intros x llx y lyx Hx Hxk Hy Hne.
      assert (A1 : apart lyx ly) by (by eapply (lo_apart _ LO x j)).
      destruct A1 as (B1 & B2 & B3). split; [|split; [set_solver|done]].
      intros l Hl [Hl'|Hl']%elem_of_app; [by eapply B2|].
      apply elem_of_list_In, in_concat in Hl' as (t & Ht & Hlt). apply in_map_iff in Ht as (lyk & <- & Hk).
      apply elem_of_list_In, elem_of_list_lookup in Hk as [z Hz].
      assert (A2 : apart lyx lyk). { eapply (lo_apart _ LO x k); [done..|]. congruence. }
      destruct A2 as (_ & A2 & _). eapply A2; [exact Hl|]. by apply elem_of_list_In. }
    assert (HF : forall x llx lvx, lls !! x = Some llx -> x <> k -> x <> j -> layer_rep m c llx lvx -> layer_rep m' c llx lvx).
    { intros x llx lvx Hx Hxk Hxj [L1 L2 L3 L4 L5 L6]. constructor.
      - rewrite (tc_layer _ _ _ _ _ T). exact L1.
      - rewrite (tc_na _ _ _ _ _ T). exact L2.
      - rewrite (tc_ia _ _ _ _ _ T). exact L3.
      - destruct (ll_norm llx) eqn:En; [|done]. by rewrite (HN _ _ _ Hx En).
      - rewrite (tc_lsh _ _ _ _ _ T). exact L5.
      - eapply reps_frame; [exact L6|exact T|]. apply Forall_lookup. intros y lyx Hy. eapply HA; [done..|]. congruence. }
    pose proof (ni_at _ _ _ _ _ R) as Hat. pose proof R as [Ra RL _ Rr Rs HP].
    constructor.
    6:{ eapply (st_touch (lls := lls) _ _ _ _ _ HP T).
        - intros l [Hl|Hl]%elem_of_app; [exists ll, ly; split; [by eapply elem_of_list_lookup_2|done]|].
          apply elem_of_list_In, in_concat in Hl as (t & Ht & Hlt). apply in_map_iff in Ht as (lyk & <- & Hk).
          exists llk, lyk. split; [by eapply elem_of_list_lookup_2|]. split; by apply elem_of_list_In.
        - intros l ->%elem_of_list_singleton. exists ll, ly. split; [by eapply elem_of_list_lookup_2|done].
        - intros l Hl. exists ll, ly. split; [by eapply elem_of_list_lookup_2|done]. }
    - rewrite (tc_la _ _ _ _ _ T). done.
    - cbn. by rewrite !insert_length.
    - intros x llx lvx Hx Hx'. cbn in Hx'. destruct (decide (x = k)) as [->|Hxk].
      + rewrite list_lookup_insert in Hx' by (rewrite insert_length; by eapply lookup_lt_Some).
        injection Hx' as <-. rewrite Hllk in Hx. injection Hx as <-.
        destruct (Hat _ _ _ Hllk Hlvk) as [L1 L2 L3 L4 L5 L6]. constructor; cbn; try done.
        * rewrite (tc_layer _ _ _ _ _ T). exact L1.
        * rewrite (tc_na _ _ _ _ _ T). exact L2.
        * rewrite (tc_ia _ _ _ _ _ T). exact L3.
        * destruct (ll_norm llk) eqn:En; [|done]. by rewrite (HN _ _ _ Hllk En).
        * rewrite (tc_lsh _ _ _ _ _ T). exact L5.
      + rewrite list_lookup_insert_ne in Hx' by done. destruct (decide (x = j)) as [->|Hxj].
        * rewrite list_lookup_insert in Hx' by (by eapply lookup_lt_Some). injection Hx' as <-.
          rewrite Hll in Hx. injection Hx as <-.
          destruct (Hat _ _ _ Hll Hlv) as [L1 L2 L3 L4 L5 L6]. constructor; cbn; try done.
          -- rewrite (tc_layer _ _ _ _ _ T). exact L1.
          -- rewrite (tc_na _ _ _ _ _ T). exact L2.
          -- rewrite (tc_ia _ _ _ _ _ T). exact L3.
          -- destruct (ll_norm ll) eqn:En; [|done]. by rewrite (HN _ _ _ Hll En).
          -- rewrite (tc_lsh _ _ _ _ _ T). exact L5.
          -- destruct L6 as [M1 M2 M3]. constructor; [done|by rewrite insert_length|].
             intros y ny lyy vy Hny Hlyy Hvy. destruct (decide (y = i)) as [->|Hyi].
             ++ rewrite list_lookup_insert in Hvy by (apply lookup_lt_Some in Hn; lia). injection Hvy as <-.
                rewrite Hn in Hny. injection Hny as <-. rewrite Hly in Hlyy. injection Hlyy as <-. done.
             ++ rewrite list_lookup_insert_ne in Hvy by done.
                eapply rep_frame; [by eapply M3|exact T|]. eapply (HA j); [done..|]. congruence.
        * rewrite list_lookup_insert_ne in Hx' by done. eapply (HF x); [done..|]. by eapply Hat.
    - cbn. rewrite (tc_rng _ _ _ _ _ T). done.
    - cbn. rewrite (tc_seeds _ _ _ _ _ T). done.
  Qed.

  Lemma lys_apart j ll : lls !! j = Some ll -> all_apart (ll_lys ll).
  Proof. intros H x y a b Hxy Hx Hy. eapply (lo_apart _ LO j j); [done..|]. congruence. Qed.

  Lemma nv_set_insert_2 nv j lv k v v' :
    nv_set nv j (lv_set_nodes (lv_set_nodes lv (<[k := v]> (lv_nodes lv))) (<[k := v']> (<[k := v]> (lv_nodes lv)))) =
    nv_set nv j (lv_set_nodes lv (<[k := v']> (lv_nodes lv))).
  Proof. by rewrite list_insert_insert. Qed.

  Lemma backward_node_ref m nv n i ex lr j ll cur p :
    NR m nv -> nw_layers n = arr -> 0 <= j -> lls !! Z.to_nat j = Some ll ->
    refines (backward_node E c n i ex lr j (ll_ptr ll) cur p m)
      (ref_backward_node E (nw_num n) i ex lr j cur nv p) (fun b _ m' => NR m' b).
  Proof.
    intros R Hn Hj0 Hll. unfold backward_node, ref_backward_node.
    pose proof (lookup_lt_Some _ _ _ Hll) as Hlt. rewrite (ni_len _ _ _ _ _ R) in Hlt.
    destruct (lookup_lt_is_Some_2 _ _ Hlt) as [lv Hlv].
    rewrite (proj2 (sget_Ok (nv_layers nv) j lv)) by done. cbn [mbind res_bind].
    eapply refines_bind; [by eapply get_node_ref|]. cbn beta.
    intros v nd m' (-> & Hv & Hnd & ly & Hly & OK & Rn).
    pose proof Hnd as Hnd'. apply sget_Ok in Hnd' as [Hi0 Hnd']. apply sget_Ok in Hv as [_ Hv].
    pose proof (ni_at _ _ _ _ _ R _ _ _ Hll Hlv) as L.
    eapply (refines_bind _ _ _ _ _ (fun v1 _ m1 => rep m1 c nd ly v1 /\
      NR m1 (nv_set nv (Z.to_nat j) (lv_set_nodes lv (<[Z.to_nat (iv_index p) := v1]> (lv_nodes lv)))))).
    { destruct (j =? nw_num n - 1).
      - unfold layer_GetNomalizationConstant.
        destruct (negb (is_softmax (lv_type lv))) eqn:Es.
        { erewrite bindM_Panic; [done|]. erewrite bindM_Ok by (apply load_Ok, L). cbn [layer_rec l_type]. by rewrite Es. }
        eapply refines_bind.
        { eapply refines_skip; [apply load_Ok, L|]. cbn [layer_rec l_type]. rewrite Es.
          change (mkLayer _ _ _ _ _ _ _ _ _ _ _ _ _ _) with (layer_rec c ll lv).
          erewrite (norm_get_ref c ll m lv) by done. apply refines_lift. }
        cbn beta. intros x x' m1 [-> ->].
        eapply refines_bind_inv; [by eapply Softmax_rep|]. cbn beta. intros v1 n1 m1 (-> & R1 & T1).
        apply refines_ret. split; [done|].
        eapply (net_node c arr lls LO); try done. by apply tnode_trs.
      - apply refines_ret. split; [done|].
        rewrite list_insert_id by done. destruct lv; cbn; by rewrite nv_set_id. }
    cbn beta. intros v1 [] m1 [R1 N1].
    set (lv1 := lv_set_nodes lv (<[Z.to_nat (iv_index p) := v1]> (lv_nodes lv))) in *.
    destruct (Z.eqb_spec j 0) as [->|Hj]; cbn [negb].
    - eapply refines_bind; [by eapply BackPropagateFirstLayer_rep|]. cbn beta.
      intros v2 n2 m2 (-> & R2 & T2). apply refines_ret.
      rewrite <- (nv_set_insert_2 nv _ lv _ v1). rewrite <- (nv_set_set nv _ lv1).
      eapply (net_node c arr lls LO); [exact N1|done| |done..]. by apply nv_set_lookup.
    - rewrite Hn. eapply refines_skip; [apply load_Ok, N1|].
      pose proof (ni_layer c arr lls m1 _ (j - 1) N1) as Hg.
      assert (Hs : sget (nv_layers (nv_set nv (Z.to_nat j) lv1)) (j - 1) = sget (nv_layers nv) (j - 1)).
      { unfold sget. destruct (Z.ltb_spec (j - 1) 0); [done|]. cbn. by rewrite list_lookup_insert_ne by lia. }
      rewrite Hs in Hg.
      destruct (sget (nv_layers nv) (j - 1)) as [pv|q] eqn:Ep; cbn [mbind res_bind];
        [|unfold mbind at 1, M_bind; rewrite Hg; done].
      destruct Hg as (llk & Hllk & Hpk & Lk & Hk0).
      eapply refines_skip; [by rewrite Hpk|].
      eapply refines_skip. { unfold layer_GetAllNodes. erewrite bindM_Ok by (apply load_Ok, Lk). reflexivity. }
      cbn [layer_rec l_nodes].
      eapply refines_bind.
      { eapply (BackPropagate_rep E m1 c nd ly v1 (ll_na llk) (ll_ns llk) (ll_lys llk) (lv_nodes pv)); try done.
        - apply Lk.
        - apply Lk.
        - by eapply lys_apart.
        - by eapply (lo_ok _ LO).
        - apply Forall_lookup. intros y lyy Hy. eapply (lo_apart _ LO); [exact Hll|exact Hllk|exact Hly|exact Hy|].
          intros [= ??]. lia. }
      cbn beta. intros [v2 ps] n2 m2 (-> & R2 & RP & T). cbn [fst snd] in *. apply refines_ret.
      rewrite <- (nv_set_insert_2 nv _ lv _ v1). rewrite <- (nv_set_set nv _ lv1).
      eapply net_two; [exact N1| |exact Hll|exact Hllk| | |done..].
      + lia.
      + by apply nv_set_lookup.
      + apply sget_Ok in Hs as [_ Hs]. exact Hs.
  Qed.

  Lemma backward_layer_ref m nv n i ex lr anpl j : NR m nv -> nw_layers n = arr ->
    refines (backward_layer E c n i ex lr anpl j m) (ref_backward_layer E (nw_num n) i ex lr anpl nv j)
      (fun b _ m' => NR m' b).
  Proof.
    intros R Hn. unfold backward_layer, ref_backward_layer. rewrite Hn.
    eapply refines_skip; [apply load_Ok, R|].
    pose proof (ni_layer c arr lls m nv j R) as Hg.
    destruct (sget (nv_layers nv) j) as [lv|q] eqn:Ev; cbn [mbind res_bind];
      [|unfold mbind at 1, M_bind; rewrite Hg; done].
    destruct Hg as (ll & Hll & Hp & L & Hj).
    eapply refines_skip; [by rewrite Hp|].
    eapply refines_bind; [apply refines_lift|]. cbn beta. intros cur a' m' [-> ->].
    eapply refines_bind; [apply refines_lift|]. cbn beta. intros next a' m' [-> ->].
    unfold miter. eapply (refines_fold _ _ (fun b _ m' => NR m' b)); [|done].
    intros b [] m1 p _ R1. by eapply backward_node_ref.
  Qed.

  Lemma train_one_ref m nv n lr ix : NR m nv -> nw_layers n = arr ->
    refines (train_one E c n lr ix m) (ref_train_one E (nw_num n) (nw_sparsity n) lr nv ix)
      (fun b a m' => a = b.1 /\ NR m' b.2).
  Proof.
    intros R Hn. unfold train_one, ref_train_one. destruct ix as [i ex].
    eapply refines_bind; [by apply (forward_ref (P := P))|]. cbn beta.
    intros [[anpl ins] nv1] a m1 [-> R1]. cbn [fst snd] in *.
    eapply refines_bind.
    { unfold miter. eapply (refines_fold _ _ (fun b _ m' => NR m' b)); [|exact R1].
      intros b [] m2 j _ R2. by apply backward_layer_ref. }
    cbn beta. intros nv2 [] m2 R2. by apply refines_ret.
  Qed.

  Lemma train_all_ref m nv n lr exs : NR m nv -> nw_layers n = arr ->
    refines (mmap (train_one E c n lr) exs m)
      (foldM (fun '(ins, nv) ix => '(x, nv) ← ref_train_one E (nw_num n) (nw_sparsity n) lr nv ix; Ok (ins ++ [x], nv)) ([], nv) exs)
      (fun b a m' => a = b.1 /\ NR m' b.2).
  Proof.
    intros R Hn.
    assert (G : forall pre, refines (mmap (train_one E c n lr) exs m)
      (foldM (fun '(ins, nv) ix => '(x, nv) ← ref_train_one E (nw_num n) (nw_sparsity n) lr nv ix; Ok (ins ++ [x], nv)) (pre, nv) exs)
      (fun b a m' => pre ++ a = b.1 /\ NR m' b.2)).
    { revert m nv R. induction exs as [|ex exs IH]; intros m nv R pre; cbn [mmap foldM].
      - apply refines_ret. cbn. by rewrite app_nil_r.
      - pose proof (train_one_ref m nv n lr ex R Hn) as H.
        destruct (ref_train_one _ _ _ _ _ _) as [[x nv1]|q]; cbn [refines mbind res_bind] in *; [|by rewrite (bindM_Panic _ _ _ _ H)].
        destruct H as (a & m1 & H & -> & R1). cbn [fst snd] in *. rewrite (bindM_Ok _ _ _ _ _ H).
        eapply refines_bind_inv; [by apply (IH m1 nv1 R1 (pre ++ [x]))|]. cbn beta.
        intros b ys m2 [E1 R2]. apply refines_ret. split; [|done]. rewrite <- E1, <- app_assoc. done. }
    exact (G []).
  Qed.

  Lemma bind_lift_ref {A A' B'} (r : res A) (f : A -> M A') (g : A -> res B') m Q :
    (forall a, refines (f a m) (g a) Q) -> refines ((lift r ≫= f) m) (r ≫= g) Q.
  Proof. intros H. rewrite bindM_lift. destruct r; [apply H|done]. Qed.

  Lemma adam_weight_ref m n ly v lr d : rep m c n ly v -> ly_ok ly ->
    refines (adam_weight c lr (ly_w ly) n d m) (ref_adam_weight lr v d)
      (fun v' n' m' => n' = n /\ rep m' c n ly v' /\ tnode ly m m').
  Proof.
    intros R OK. unfold adam_weight, ref_adam_weight.
    destruct (node_reads _ _ _ _ _ R) as (G1 & G2 & G3 & _).
    unfold mbind at 1, M_bind. rewrite G1. unfold lift at 1.
    destruct (sget (v_t v) d) as [t|q]; cbn [mbind res_bind]; [|done].
    unfold mbind at 1, M_bind. rewrite G2. unfold lift at 1.
    destruct (sget (v_mom v) d) as [mom|q]; cbn [mbind res_bind]; [|done].
    unfold mbind at 1, M_bind. rewrite G3. unfold lift at 1.
    destruct (sget (v_vel v) d) as [vel|q]; cbn [mbind res_bind]; [|done].
    set (mom' := fadd (fmul beta1 mom) (fmul beta1c t)). set (vel' := fadd (fmul beta2 vel) (fmul (fmul beta2c t) t)).
    set (x := fdiv _ _).
    pose proof (fadd_slot_felems _ _ _ d x (rep_w _ _ _ _ _ R)) as H.
    destruct (add_at (v_w v) d x) as [w|q]; cbn [mbind res_bind]; [|by erewrite bindM_Panic by exact H].
    destruct H as (m1 & H & He & Ht). rewrite (bindM_Ok _ _ _ _ _ H).
    assert (R1 : rep m1 c n ly (v_set_w v w)).
    { eapply (rep_set_slice _ _ _ _ _ R OK m1 (ly_w ly)); [left|done|done|done]. }
    assert (T1 : tnode ly m m1). { eapply tnode_slice; [|exact Ht]. left. }
    eapply refines_bind; [by eapply (SetAdamAvgMom_rep _ _ _ _ _ R1)|]. cbn beta.
    intros moms n' m2 (-> & R2 & T2).
    eapply refines_bind; [by eapply (SetAdamAvgVel_rep _ _ _ _ _ R2)|]. cbn beta.
    intros vels n' m3 (-> & R3 & T3).
    eapply refines_map; [by eapply (SetT_rep _ _ _ _ _ R3)|]. cbn beta.
    intros ts n' m5 (-> & R5 & T5). split; [done|]. split; [done|].
    eapply tnode_trans; [exact T1|]. eapply tnode_trans; [exact T2|]. by eapply tnode_trans.
  Qed.

  Lemma adam_bias_ref m n ly v lr : rep m c n ly v ->
    exists m', adam_bias c lr n m = Ok (n, m') /\ rep m' c n ly (ref_adam_bias lr v) /\ tnode ly m m'.
  Proof.
    intros R. unfold adam_bias, node_SetAdamAvgMomBias, node_SetAdamAvgVelBias, node_SetBias, node_SetTBias.
    destruct (node_reads _ _ _ _ _ R) as (_ & _ & _ & B1 & B2 & B3 & B4 & _).
    rewrite (bindM_Ok _ _ _ _ _ B3), (bindM_Ok _ _ _ _ _ B2).
    destruct (set_scalar_rep _ _ _ _ _ R b_set_momBias (fadd (fmul beta1 (v_momBias v)) (fmul beta1c (v_tBias v))) _ _ _ _ _ eq_refl)
      as (m1 & H1 & R1 & T1). rewrite (bindM_Ok _ _ _ _ _ H1). clear B1 B2 B3 B4.
    destruct (node_reads _ _ _ _ _ R1) as (_ & _ & _ & B1 & B2 & B3 & B4 & _).
    rewrite (bindM_Ok _ _ _ _ _ B4), (bindM_Ok _ _ _ _ _ B2). cbn [v_set_biases v_velBias v_tBias] in *.
    destruct (set_scalar_rep _ _ _ _ _ R1 b_set_velBias (fadd (fmul beta2 (v_velBias v)) (fmul (fmul beta2c (v_tBias v)) (v_tBias v))) _ _ _ _ _ eq_refl)
      as (m2 & H2 & R2 & T2). rewrite (bindM_Ok _ _ _ _ _ H2). clear B1 B2 B3 B4.
    destruct (node_reads _ _ _ _ _ R2) as (_ & _ & _ & B1 & B2 & B3 & B4 & _).
    rewrite (bindM_Ok _ _ _ _ _ B1), (bindM_Ok _ _ _ _ _ B3), (bindM_Ok _ _ _ _ _ B4).
    cbn [v_set_biases v_bias v_momBias v_velBias v_tBias] in *.
    match goal with |- context [set_scalar b_set_bias c n ?x] => set (y := x) end.
    destruct (set_scalar_rep _ _ _ _ _ R2 b_set_bias y _ _ _ _ _ eq_refl) as (m3 & H3 & R3 & T3).
    rewrite (bindM_Ok _ _ _ _ _ H3).
    destruct (set_scalar_rep _ _ _ _ _ R3 b_set_tBias fzero _ _ _ _ _ eq_refl) as (m5 & H5 & R5 & T5).
    exists m5. split; [done|]. split; [exact R5|].
    eapply tnode_trans; [exact T1|]. eapply tnode_trans; [exact T2|]. by eapply tnode_trans.
  Qed.

  Lemma update_params_ref m n ly v lr : rep m c n ly v -> ly_ok ly ->
    refines ((if e_UseAdam E then
               dim ← node_AdamTDim n;
               tmp ← mfold (adam_weight c lr (ly_w ly)) n (seqZ 0 dim);
               adam_bias c lr tmp
             else node_CopyWeightsAndBiasFromMirror c n) m)
      (ref_update_params (e_UseAdam E) lr v)
      (fun v' n' m' => n' = n /\ rep m' c n ly v' /\ tnode ly m m').
  Proof.
    intros R OK. unfold ref_update_params. destruct (e_UseAdam E).
    - eapply refines_skip.
      { unfold node_AdamTDim. erewrite bindM_Ok by (by eapply get_base_view). reflexivity. }
      cbn [b_t]. pose proof (felems_length _ _ _ (rep_t _ _ _ _ _ R)) as HL.
      replace (seqZ 0 (fs_len (ly_t ly))) with (seqZ 0 (Z.of_nat (length (v_t v)))).
      2:{ unfold seqZ. do 2 f_equal. lia. }
      eapply refines_bind.
      { eapply (refines_fold _ _ (fun v' n' m' => n' = n /\ rep m' c n ly v' /\ tnode ly m m')).
        - intros b a m1 d _ (-> & R1 & T1). eapply refines_impl; [by eapply adam_weight_ref|]. cbn beta.
          intros v2 n2 m2 (-> & R2 & T2). split; [done|]. split; [done|]. by eapply tnode_trans.
        - split; [done|]. split; [done|]. apply tnode_refl. }
      cbn beta. intros v1 n1 m1 (-> & R1 & T1).
      destruct (adam_bias_ref _ _ _ _ lr R1) as (m2 & H2 & R2 & T2). exists n, m2. split; [done|].
      split; [done|]. split; [done|]. by eapply tnode_trans.
    - destruct (CopyMirror_rep _ _ _ _ _ R) as (m1 & H1 & R1 & T1). exists n, m1. done.
  Qed.

  (** Only DensifiedMinhash looks beyond the length of a slice, and only if it is shorter than topK. *)
  Lemma weight_hashes_spare h w spare : (e_Hash E = DensifiedMinhashFunction -> topK <= Z.of_nat (length w)) ->
    weight_hashes E h w spare = weight_hashes E h w [].
  Proof.
    intros H. unfold weight_hashes. destruct (e_Hash E); try done. specialize (H eq_refl).
    destruct (notnil (hs_min h)) as [mn|]; cbn [mbind res_bind]; [|done].
    unfold mn_GetHashEasyDense, mn_heap_dense. f_equal.
    assert (Hs : slice_to w spare topK = slice_to w [] topK); [|by rewrite Hs].
    unfold slice_to. unfold topK in *. rewrite !app_length. cbn [length].
    rewrite !orb_false_l. destruct (Z.ltb_spec (Z.of_nat (length w + length spare)) 30); [lia|].
    destruct (Z.ltb_spec (Z.of_nat (length w + 0)) 30); [lia|].
    f_equal. rewrite !take_app_le by lia. done.
  Qed.

  Context (SP : spare_ok E lls).

  Section AtLayer.
    Context (j : nat) (ll : LayerLay) (Hll : lls !! j = Some ll).

    Lemma insert_ref m nv lv n ly v k :
      NR m (nv_set nv j lv) -> (j < length (nv_layers nv))%nat -> rep m c n ly v -> ly ∈ ll_lys ll ->
      refines ((hashes ← layer_GetHashForInputProcessing E (ll_ptr ll) (ly_w ly);
                indices ← layer_HashesToIndex E (ll_ptr ll) hashes;
                _ ← layer_HashTablesAdd (ll_ptr ll) indices k; mret tt) m)
        (ref_insert E (lv_hash lv) (lv_tables lv) (v_w v) k)
        (fun t _ m' => NR m' (nv_set nv j (lv_set_tables lv t))).
    Proof.
      intros R Hj Rn Hin. pose proof (ni_j c arr lls j ll Hll _ _ _ R Hj) as L.
      unfold ref_insert, layer_GetHashForInputProcessing, layer_HashesToIndex, layer_HashTablesAdd.
      assert (Hsp : exists sp, fspare (ly_w ly) m = Ok (sp, m)).
      { unfold fspare. destruct (Z.leb_spec (fs_len (ly_w ly)) 0); [eexists; reflexivity|].
        destruct (felems_lookup _ _ _ (rep_w _ _ _ _ _ Rn)) as (a & Ha & _); [done|].
        erewrite bindM_Ok by (apply load_Ok, Ha). eexists; reflexivity. }
      destruct Hsp as [sp Hsp].
      eapply refines_bind.
      { eapply refines_skip; [apply load_Ok, L|]. eapply refines_skip; [apply fread_felems, Rn|].
        eapply refines_skip; [exact Hsp|]. rewrite l_hashers_rec, weight_hashes_spare; [apply refines_lift|].
        intros Hh. pose proof (felems_length _ _ _ (rep_w _ _ _ _ _ Rn)) as HL.
        pose proof (SP Hh ll ly ltac:(by eapply elem_of_list_lookup_2) Hin). unfold topK in *. lia. }
      cbn beta. intros hashes a' m' [-> ->].
      eapply refines_bind.
      { eapply refines_skip; [apply load_Ok, L|]. cbn [layer_rec l_tables]. eapply refines_skip; [apply load_Ok, L|]. apply refines_lift. }
      cbn beta. intros indices a' m' [-> ->].
      destruct (lsh_Add (lv_tables lv) indices k) as [[r t]|q] eqn:Ea; cbn [mbind res_bind].
      - eapply refines_skip.
        { erewrite bindM_Ok by (apply load_Ok, L). cbn [layer_rec l_tables]. erewrite bindM_Ok by (apply load_Ok, L).
          rewrite Ea, bindM_lift. erewrite bindM_Ok by (eapply store_Ok, L). reflexivity. }
        apply refines_ret. rewrite <- (nv_set_set nv j lv).
        eapply (net_tables c arr lls LO); [exact R|done|]. by apply nv_set_lookup.
      - cbn [refines]. erewrite bindM_Panic; [done|].
        erewrite bindM_Ok by (apply load_Ok, L). cbn [layer_rec l_tables]. erewrite bindM_Ok by (apply load_Ok, L). by rewrite Ea.
    Qed.

    Lemma update_node_ref m nv lv lr rehash k : NR m (nv_set nv j lv) -> (j < length (nv_layers nv))%nat ->
      refines (update_node E c lr rehash (ll_ptr ll) k m) (ref_update_node E lr rehash lv k)
        (fun lv' _ m' => NR m' (nv_set nv j lv')).
    Proof.
      intros R Hj. unfold update_node, ref_update_node.
      eapply refines_bind; [eapply (get_node_ref c arr lls LO); [exact R|exact Hll|by apply nv_set_lookup]|]. cbn beta.
      intros v n m' (-> & Hv & Hn & ly & Hly & OK & Rn).
      eapply refines_skip.
      { unfold node_Weights. erewrite bindM_Ok by (by eapply get_base_view). reflexivity. }
      cbn [b_weights].
      eapply refines_bind; [by eapply update_params_ref|]. cbn beta. intros v1 n1 m1 (-> & R1 & T1).
      assert (N1 : NR m1 (nv_set nv j (lv_set_nodes lv (<[Z.to_nat k := v1]> (lv_nodes lv))))).
      { by eapply (node_upd c arr lls LO). }
      destruct rehash.
      - eapply refines_map; [eapply (insert_ref _ _ _ _ _ _ _ N1 Hj R1); by eapply elem_of_list_lookup_2|].
        cbn beta. done.
      - cbn [mbind res_bind]. apply refines_ret. by destruct lv.
    Qed.
  End AtLayer.

  Lemma update_layer_ref m nv n lr rehash rebuild j : NR m nv -> nw_layers n = arr ->
    refines (update_layer E c n lr rehash rebuild j m) (ref_update_layer E lr (nw_sparsity n) rehash rebuild nv j)
      (fun b _ m' => NR m' b).
  Proof.
    intros R Hn. unfold update_layer, ref_update_layer. rewrite Hn.
    eapply refines_skip; [apply load_Ok, R|].
    pose proof (ni_layer c arr lls m nv j R) as Hg.
    destruct (sget (nv_layers nv) j) as [lv|q] eqn:Ev; cbn [mbind res_bind];
      [|unfold mbind at 1, M_bind; rewrite Hg; done].
    destruct Hg as (ll & Hll & Hp & L & Hj0). apply sget_Ok in Ev as [_ Hlv].
    assert (Hj : (Z.to_nat j < length (nv_layers nv))%nat) by (by eapply lookup_lt_Some).
    eapply refines_skip; [by rewrite Hp|].
    apply bind_lift_ref. intros sp.
    set (rh := rehash && fltb sp fone). set (rb := rebuild && fltb sp fone).
    set (lv1 := if rh then lv_set_tables lv (lsh_Clear (lv_tables lv)) else lv).
    assert (H1 : exists m1, (if rh then layer_ClearHashTables (ll_ptr ll) else mret tt) m = Ok (tt, m1) /\
      NR m1 (nv_set nv (Z.to_nat j) lv1)).
    { subst lv1. destruct rh.
      - eexists. split.
        + unfold layer_ClearHashTables. erewrite bindM_Ok by (apply load_Ok, L). cbn [layer_rec l_tables].
          erewrite bindM_Ok by (apply load_Ok, L). eapply store_Ok, L.
        + by eapply (net_tables c arr lls LO).
      - eexists. split; [reflexivity|]. by rewrite nv_set_id. }
    destruct H1 as (m1 & H1 & R1). eapply refines_skip; [exact H1|].
    pose proof (ni_j c arr lls _ ll Hll _ _ _ R1 Hj) as L1.
    eapply (refines_bind _ _ _ _ _ (fun b _ m' => NR m' (nv_set (mkNV (nv_layers nv) b.1.2 b.2) (Z.to_nat j) b.1.1) /\
       (length (lv_nodes b.1.1) = length (lv_nodes lv1)))).
    { destruct rb.
      - unfold layer_UpdateTable.
        assert (Hu : (l ← layer_cloneIfNeeded c (ll_ptr ll); la ← load_layer l;
            h ← new_hashers E (l_hashers la) (l_k la) (l_l la) (l_prev la);
            _ ← store_layer l (l_set_hashers la h); mret l) m1 =
          match make_hashers E (lv_hash lv1) (e_mh E (nv_seeds nv)) (lv_k lv1) (lv_l lv1) (lv_prev lv1) (nv_rng nv) with
          | Ok (h, g) => Ok (ll_ptr ll, upd_layer (fun r => <[ll_ptr ll := layer_rec c ll (lv_set_hash lv1 h)]> r) (upd_seeds (S (nv_seeds nv)) (upd_rng g m1)))
          | Panic p => Panic p
          end).
        { rewrite (bindM_Ok _ _ _ _ _ (layer_clone_id _ _ _ _ L1)).
          rewrite (bindM_Ok _ _ _ _ _ (load_Ok m_layer _ _ _ (lr_layer _ _ _ _ L1))).
          rewrite l_hashers_rec. cbn [layer_rec l_k l_l l_prev].
          unfold new_hashers. unfold mbind at 1, M_bind.
          pose proof (ni_rng _ _ _ _ _ R1) as E1. pose proof (ni_seeds _ _ _ _ _ R1) as E2. cbn in E1, E2. rewrite E1, E2.
          destruct (make_hashers _ _ _ _ _ _ _) as [[h g]|]; [|done].
          erewrite bindM_Ok; [reflexivity|]. eapply store_Ok. cbn. apply L1. }
        destruct (make_hashers _ _ _ _ _ _ _) as [[h g]|]; [|by erewrite bindM_Panic by exact Hu].
        eapply refines_skip; [exact Hu|]. clear Hu.
        set (m2 := upd_layer _ _).
        assert (R2 : NR m2 (nv_set (mkNV (nv_layers nv) g (S (nv_seeds nv))) (Z.to_nat j) (lv_set_hash lv1 h))).
        { pose proof (net_seeds c arr lls m1 _ g (S (nv_seeds nv)) R1) as R2'.
          rewrite <- (nv_set_set _ (Z.to_nat j) lv1).
          eapply (net_hash c arr lls LO); [exact R2'|done|]. by apply nv_set_lookup. }
        eapply refines_skip; [apply load_Ok, R2|].
        eapply refines_skip; [by rewrite (sset_id _ _ _ Hp)|].
        exists tt, m2. rewrite store_la_id by apply R2. split; [done|]. cbn [fst snd]. done.
      - apply refines_ret. cbn [fst snd]. split; [|done]. exact R1. }
    cbn beta. intros [[lv2 g] s] [] m2 [R2 HL]. cbn [fst snd] in *.
    pose proof (ni_j c arr lls _ ll Hll _ _ _ R2 Hj) as L2.
    eapply refines_skip.
    { unfold layer_NumOfNodes. erewrite bindM_Ok by (apply load_Ok, L2). cbn [layer_rec l_nodes].
      erewrite bindM_Ok by (apply load_Ok, L2). reflexivity. }
    rewrite <- (reps_l2 _ _ _ _ _ (lr_nodes _ _ _ _ L2)).
    unfold miter.
    eapply refines_map.
    { eapply (refines_fold _ _ (fun lv' _ m' => NR m' (nv_set (mkNV (nv_layers nv) g s) (Z.to_nat j) lv'))); [|exact R2].
      intros b [] m3 k _ R3. by eapply update_node_ref. }
    cbn beta. intros lv3 _ m3 R3. exact R3.
  Qed.

  Lemma reshuffle_ref m nv n j : NR m nv -> nw_layers n = arr ->
    refines ((ls ← load_la (nw_layers n); lp ← lift (sget ls j); layer_UpdateRandomNodes lp) m) (ref_reshuffle nv j)
      (fun b _ m' => NR m' b).
  Proof.
    intros R Hn. unfold ref_reshuffle. rewrite Hn.
    eapply refines_skip; [apply load_Ok, R|].
    pose proof (ni_layer c arr lls m nv j R) as Hg.
    destruct (sget (nv_layers nv) j) as [lv|q] eqn:Ev; cbn [mbind res_bind];
      [|unfold mbind at 1, M_bind; rewrite Hg; done].
    destruct Hg as (ll & Hll & Hp & L & Hj0). apply sget_Ok in Ev as [_ Hlv].
    eapply refines_skip; [by rewrite Hp|]. unfold layer_UpdateRandomNodes.
    eapply refines_skip; [apply load_Ok, L|]. cbn [layer_rec l_nodes l_rand].
    eapply refines_skip; [apply load_Ok, L|]. eapply refines_skip; [apply load_Ok, L|].
    rewrite (reps_l2 _ _ _ _ _ (lr_nodes _ _ _ _ L)).
    destruct (_ && _); [done|].
    unfold with_rng. unfold mbind at 1, M_bind. rewrite (ni_rng _ _ _ _ _ R).
    destruct (fisher_yates _ _ _) as [r g].
    eexists tt, _. split; [eapply store_Ok; cbn; apply L|].
    exact (net_rand c arr lls LO (upd_rng g m) (nv_set_rng nv g) _ ll lv r (net_rng c arr lls m nv g R) Hll Hlv).
  Qed.

  Lemma process_gen m nv n exs iter rehash rebuild : NR m nv -> nw_layers n = arr -> nw_cowId n = c ->
    refines (network_ProcessInput E c n exs iter rehash rebuild m)
      (ref_process E (nw_num n) (nw_sparsity n) (nw_lr n) nv exs iter rehash rebuild)
      (fun b a m' => a = (b.1, n) /\ NR m' b.2).
  Proof.
    intros R Hn Hc. unfold network_ProcessInput, ref_process, network_cloneIfNeeded. rewrite Hc, Z.eqb_refl.
    apply bind_lift_ref. intros _.
    eapply (refines_bind _ _ _ _ _ (fun b _ m' => NR m' b)).
    { destruct (_ =? _); [|by apply refines_ret].
      unfold miter. eapply (refines_fold _ _ (fun b _ m' => NR m' b)); [|exact R].
      intros b [] m1 j _ R1. by apply reshuffle_ref. }
    cbn beta. intros nv1 [] m1 R1.
    eapply refines_bind; [by apply train_all_ref|]. cbn beta. intros [ins nv2] a m2 [-> R2]. cbn [fst snd] in *.
    rewrite Hn. eapply refines_skip; [apply load_Ok, R2|].
    rewrite map_length, (ni_len _ _ _ _ _ R2).
    eapply refines_bind.
    { unfold miter. eapply (refines_fold _ _ (fun b _ m' => NR m' b)); [|exact R2].
      intros b [] m3 j _ R3. by apply update_layer_ref. }
    cbn beta. intros nv3 [] m3 R3. by apply refines_ret.
  Qed.
End Train.

Lemma process_ref E c arr lls (LO : lays_ok lls) (HS : spare_ok E lls) m nv n exs iter rehash rebuild :
  net_rep m c arr lls nv -> nw_layers n = arr -> nw_cowId n = c ->
  refines (network_ProcessInput E c n exs iter rehash rebuild m)
    (ref_process E (nw_num n) (nw_sparsity n) (nw_lr n) nv exs iter rehash rebuild)
    (fun b a m' => a = (b.1, n) /\ net_rep m' c arr lls b.2).
Proof.
  intros R%net_inv_True Hn Hc. eapply refines_impl; [exact (process_gen E c arr lls LO HS m nv n exs iter rehash rebuild R Hn Hc)|]. cbn beta. intros b a m' [-> R'%net_inv_True]. done.
Qed.
