(** The layer query and the forward pass have the reference effect on the content of the network. *)
From Verif.Spec Require Export NetRef.
From Verif.Proofs Require Export NetFrame.
From Coq Require Import Lia ZifyBool ZifyNat.

Lemma l_hashers_rec c ll lv : l_hashers (layer_rec c ll lv) = lv_hash lv.
Proof. unfold l_hashers, layer_rec. cbn. by destruct (lv_hash lv). Qed.

Lemma layer_clone_id m c ll lv : layer_rep m c ll lv -> layer_cloneIfNeeded c (ll_ptr ll) m = Ok (ll_ptr ll, m).
Proof.
  intros L. unfold layer_cloneIfNeeded. erewrite bindM_Ok by (apply load_Ok, L). cbn [layer_rec l_cowId].
  by rewrite Z.eqb_refl.
Qed.

Lemma store_na_id m l ns : m_na m !! l = Some ns -> store_na l ns m = Ok (tt, m).
Proof. intros H. unfold store. rewrite H. unfold upd_na. rewrite list_insert_id by done. by destruct m. Qed.
Lemma store_la_id m l ns : m_la m !! l = Some ns -> store_la l ns m = Ok (tt, m).
Proof. intros H. unfold store. rewrite H. unfold upd_la. rewrite list_insert_id by done. by destruct m. Qed.

Lemma sset_id {A} (l : list A) i x : sget l i = Ok x -> sset l i x = Ok l.
Proof.
  intros [Hi Hx]%sget_Ok. unfold sset. destruct (Z.ltb_spec i 0); [lia|].
  pose proof (lookup_lt_Some _ _ _ Hx). rewrite decide_True by lia. by rewrite list_insert_id.
Qed.

Lemma sset_Some {A} (l : list A) i x y : sget l i = Ok x -> sset l i y = Ok (<[Z.to_nat i := y]> l).
Proof.
  intros [Hi Hx]%sget_Ok. unfold sset. destruct (Z.ltb_spec i 0); [lia|].
  pose proof (lookup_lt_Some _ _ _ Hx). by rewrite decide_True by lia.
Qed.

Section Query.
  Context {P : mem -> Prop} (E : env) (c : Z) (arr : nat) (lls : list LayerLay) (LO : lays_ok lls) {ST : Stable lls P}.
  Notation NR m nv := (net_inv P m c arr lls nv).

  Section AtLayer.
    Context (j : nat) (ll : LayerLay) (Hll : lls !! j = Some ll).

    Lemma ni_j m nv lv : NR m (nv_set nv j lv) -> (j < length (nv_layers nv))%nat -> layer_rep m c ll lv.
    Proof. intros R Hj. eapply (ni_at _ _ _ _ _ R); [exact Hll|]. by apply nv_set_lookup. Qed.

    (** One node of the layer changes. *)
    Lemma node_upd m m' nv lv k n ly v v' : NR m (nv_set nv j lv) -> (j < length (nv_layers nv))%nat ->
      sget (lv_nodes lv) k = Ok v -> sget (ll_ns ll) k = Ok n -> ll_lys ll !! Z.to_nat k = Some ly ->
      rep m' c n ly v' -> tnode ly m m' -> NR m' (nv_set nv j (lv_set_nodes lv (<[Z.to_nat k := v']> (lv_nodes lv)))).
    Proof.
      intros R Hj Hv Hn Hly R' T. apply sget_Ok in Hn as [_ Hn].
      rewrite <- (nv_set_set nv j lv). eapply (net_node c arr lls LO); [exact R|exact Hll|by apply nv_set_lookup|done..].
    Qed.

    Lemma activate_node_ref m nv lv vs next mx cur i p :
      NR m (nv_set nv j (lv_set_nodes lv vs)) -> (j < length (nv_layers nv))%nat ->
      refines (activate_node c (layer_rec c ll lv) cur i (next, mx) p m)
        (ref_act_step (is_softmax (lv_type lv)) cur i (vs, (next, mx)) p)
        (fun b a m' => a = b.2 /\ NR m' (nv_set nv j (lv_set_nodes lv b.1))).
    Proof.
      intros R Hj. pose proof (ni_j _ _ _ R Hj) as L. unfold activate_node, ref_act_step.
      cbn [layer_rec l_nodes l_type].
      eapply refines_skip; [apply load_Ok, L|].
      pose proof (reps_get _ _ _ _ _ (iv_index p) (lr_nodes _ _ _ _ L)) as Hg. cbn [lv_set_nodes lv_nodes] in Hg.
      destruct (sget vs (iv_index p)) as [v|q] eqn:Ev; cbn [mbind res_bind];
        [|unfold mbind at 1, M_bind; rewrite Hg; done].
      destruct Hg as (n & ly & Hn & Hly & Hin & Rn).
      eapply refines_skip; [by rewrite Hn|].
      assert (OK : ly_ok ly). { eapply Forall_forall; [|exact Hin]. by eapply (lo_ok _ LO). }
      eapply refines_bind; [by eapply GetActivation_rep|]. cbn beta.
      intros [a v'] [a' n'] m' (Ha & Hn' & R' & T). cbn [fst snd] in *. subst a' n'.
      eapply refines_skip. { apply load_Ok. rewrite (tc_na _ _ _ _ _ T). apply L. }
      eapply refines_skip. { by rewrite (sset_id _ _ _ Hn). }
      eapply refines_skip. { apply store_na_id. rewrite (tc_na _ _ _ _ _ T). apply L. }
      apply refines_ret. split; [done|]. cbn [fst].
      change (lv_set_nodes lv (<[Z.to_nat (iv_index p):=v']> vs)) with
        (lv_set_nodes (lv_set_nodes lv vs) (<[Z.to_nat (iv_index p):=v']> (lv_nodes (lv_set_nodes lv vs)))).
      eapply node_upd; try done. by apply tnode_trs.
    Qed.

    Lemma norm_get_ref m lv la i : layer_rep m c ll lv -> l_norm la = ll_norm ll ->
      norm_get la i m = lift (sget (lv_norm lv) i) m.
    Proof.
      intros L Ea. unfold norm_get. rewrite Ea. pose proof (lr_norm _ _ _ _ L) as HN.
      destruct (ll_norm ll) as [a|].
      - by rewrite (bindM_Ok _ _ _ _ _ (load_Ok m_f _ _ _ HN)).
      - rewrite HN. unfold sget. destruct (i <? 0); done.
    Qed.

    Lemma norm_set_ref m nv lv la i x : NR m (nv_set nv j lv) -> (j < length (nv_layers nv))%nat -> l_norm la = ll_norm ll ->
      refines (norm_set la i x m) (sset (lv_norm lv) i x) (fun xs _ m' => NR m' (nv_set nv j (lv_set_norm lv xs)) /\ m_na m' = m_na m).
    Proof.
      intros R Hj Ea. pose proof (ni_j _ _ _ R Hj) as L. unfold norm_set. rewrite Ea. pose proof (lr_norm _ _ _ _ L) as HN.
      destruct (ll_norm ll) as [a|] eqn:En.
      - rewrite (bindM_Ok _ _ _ _ _ (load_Ok m_f _ _ _ HN)).
        destruct (sset (lv_norm lv) i x) as [xs|q]; cbn [refines]; [|done].
        eexists tt, _. split.
        + rewrite bindM_lift. by eapply store_Ok.
        + split; [|done]. rewrite <- (nv_set_set nv j lv).
          eapply (net_norm c arr lls LO); [exact R|exact Hll|by apply nv_set_lookup|done].
      - rewrite HN. unfold sset. destruct (i <? 0); [done|]. rewrite decide_False by (cbn; lia). done.
    Qed.

    Lemma softmax_node_ref m nv lv vs norm next i mx p :
      NR m (nv_set nv j (lv_set_norm (lv_set_nodes lv vs) norm)) -> (j < length (nv_layers nv))%nat ->
      refines (softmax_node E c (layer_rec c ll lv) i mx next p m) (ref_soft_step E i mx (vs, norm, next) p)
        (fun b a m' => a = b.2 /\ NR m' (nv_set nv j (lv_set_norm (lv_set_nodes lv b.1.1) b.1.2))).
    Proof.
      intros R Hj. pose proof (ni_j _ _ _ R Hj) as L. unfold softmax_node, ref_soft_step.
      cbn [layer_rec l_nodes l_type].
      eapply refines_skip; [apply load_Ok, L|].
      pose proof (reps_get _ _ _ _ _ (iv_index p) (lr_nodes _ _ _ _ L)) as Hg. cbn [lv_set_nodes lv_set_norm lv_nodes] in Hg.
      destruct (sget vs (iv_index p)) as [v|q] eqn:Ev; cbn [mbind res_bind];
        [|unfold mbind at 1, M_bind; rewrite Hg; done].
      destruct Hg as (n & ly & Hn & Hly & Hin & Rn).
      eapply refines_skip; [by rewrite Hn|].
      assert (OK : ly_ok ly). { eapply Forall_forall; [|exact Hin]. by eapply (lo_ok _ LO). }
      eapply refines_bind; [by eapply SetlastActivation_rep|]. cbn beta.
      intros v' n' m' (-> & R' & T).
      eapply refines_skip. { apply load_Ok. rewrite (tc_na _ _ _ _ _ T). apply L. }
      eapply refines_skip. { by rewrite (sset_id _ _ _ Hn). }
      eapply refines_skip. { apply store_na_id. rewrite (tc_na _ _ _ _ _ T). apply L. }
      assert (R1 : NR m' (nv_set nv j (lv_set_norm (lv_set_nodes lv (<[Z.to_nat (iv_index p):=v']> vs)) norm))).
      { change (lv_set_norm (lv_set_nodes lv (<[Z.to_nat (iv_index p):=v']> vs)) norm) with
          (lv_set_nodes (lv_set_norm (lv_set_nodes lv vs) norm)
             (<[Z.to_nat (iv_index p):=v']> (lv_nodes (lv_set_norm (lv_set_nodes lv vs) norm)))).
        by eapply node_upd. }
      pose proof (ni_j _ _ _ R1 Hj) as L1.
      set (la := layer_rec c ll lv).
      assert (Ea : l_norm la = ll_norm ll) by done.
      eapply refines_bind.
      { rewrite (norm_get_ref m' _ la i L1 Ea). apply refines_lift. }
      cbn beta. intros x x' m'' [-> ->].
      eapply refines_bind. { apply (norm_set_ref m' nv _ la i _ R1 Hj Ea). }
      cbn beta. intros xs [] m2 [R2 _]. apply refines_ret. split; [done|]. exact R2.
    Qed.

    Lemma mmap_params m lv ns lys vs : layer_rep m c ll lv -> reps m c ns lys vs ->
      mmap (fun p => b ← get_base p; w ← fread (b_weights b); mret (w, b_bias b)) ns m =
        Ok (map (fun v => (v_w v, v_bias v)) vs, m).
    Proof.
      intros L. revert lys vs. induction ns as [|n ns IH]; intros lys vs [L1 L2 Ha]; cbn [mmap].
      - destruct vs; [done|cbn in *; lia].
      - destruct lys as [|ly lys]; [cbn in *; lia|]. destruct vs as [|v vs]; [cbn in *; lia|].
        pose proof (Ha 0%nat n ly v eq_refl eq_refl eq_refl) as Rn.
        erewrite bindM_Ok.
        2:{ erewrite bindM_Ok by (by eapply get_base_view). cbn [b_weights b_bias].
            erewrite bindM_Ok by (apply fread_felems, Rn). done. }
        erewrite bindM_Ok. 2:{ apply (IH lys vs). constructor; [cbn in *; lia..|]. intros k. apply (Ha (S k)). }
        done.
    Qed.

    Lemma select_ref m nv lv cur label sp :
      NR m nv -> nv_layers nv !! j = Some lv ->
      refines (layer_select E (layer_rec c ll lv) (ll_ns ll) cur label sp m)
        (ref_select E lv cur label sp (nv_rng nv))
        (fun b a m' => a = b.1 /\ NR m' (nv_set_rng nv b.2)).
    Proof.
      intros R Hlv. pose proof (ni_at _ _ _ _ _ R _ _ _ Hll Hlv) as L.
      pose proof (reps_l2 _ _ _ _ _ (lr_nodes _ _ _ _ L)) as HL.
      assert (Hid : nv_set_rng nv (nv_rng nv) = nv) by (by destruct nv).
      unfold layer_select, ref_select. rewrite l_hashers_rec. cbn [layer_rec l_type l_tables l_l l_rand].
      rewrite <- HL.
      destruct (feqb sp fone). { apply refines_ret. cbn [fst snd]. by rewrite Hid. }
      destruct (e_Mode E).
      - (* LayerMode1 *)
        eapply refines_skip; [apply load_Ok, L|].
        eapply refines_bind; [apply refines_lift|]. cbn beta. intros actives a' m' [-> ->].
        unfold with_rng. unfold mbind at 1, M_bind. rewrite (ni_rng _ _ _ _ _ R).
        destruct (select_mode1 _ _ _ _ _) as [vect g] eqn:Es.
        apply refines_ret. split; [done|]. by apply net_rng.
      - destruct (is_softmax (lv_type lv)); [|apply refines_ret; cbn [fst snd]; by rewrite Hid].
        unfold with_rng. unfold mbind at 1, M_bind. rewrite (ni_rng _ _ _ _ _ R).
        destruct (select_mode2 _ _ _ _ _) as [[vect g]|q]; cbn [mbind res_bind]; [|done].
        apply refines_ret. split; [done|]. by apply net_rng.
      - destruct (is_softmax (lv_type lv)); [|apply refines_ret; cbn [fst snd]; by rewrite Hid].
        eapply refines_skip; [eapply mmap_params; [exact L|apply L]|].
        eapply refines_bind; [apply refines_lift|]. cbn beta. intros [a i] a' m' [-> ->].
        apply refines_ret. cbn [fst snd]. by rewrite Hid.
      - eapply refines_skip; [apply load_Ok, L|].
        eapply refines_bind; [apply refines_lift|]. cbn beta. intros actives a' m' [-> ->].
        eapply refines_skip; [apply load_Ok, L|].
        unfold with_rng. unfold mbind at 1, M_bind. rewrite (ni_rng _ _ _ _ _ R).
        destruct (select_mode4 _ _ _ _ _ _ _) as [[[vect i] g]|q]; cbn [mbind res_bind]; [|done].
        apply refines_ret. split; [done|]. by apply net_rng.
      - apply refines_ret. cbn [fst snd]. by rewrite Hid.
    Qed.

    Lemma query_gen m nv lv anpl li i label sp :
      NR m nv -> nv_layers nv !! j = Some lv ->
      refines (layer_Query E c (ll_ptr ll) anpl li i label sp m)
        (ref_query E lv anpl li i label sp (nv_rng nv))
        (fun b a m' => a = (b.1.1.1, b.1.1.2, ll_ptr ll) /\
           NR m' (mkNV (<[j := b.1.2]> (nv_layers nv)) b.2 (nv_seeds nv))).
    Proof.
      intros R Hlv. pose proof (ni_at _ _ _ _ _ R _ _ _ Hll Hlv) as L.
      unfold layer_Query, ref_query.
      eapply refines_skip; [by eapply layer_clone_id|].
      eapply refines_skip; [apply load_Ok, L|].
      eapply refines_bind; [apply refines_lift|]. cbn beta. intros cur cur' m' [-> ->].
      eapply refines_skip; [apply load_Ok, L|].
      eapply refines_bind; [by eapply select_ref|]. cbn beta.
      intros [[sel in_] g] [sel' in_'] m1 [[= -> ->] R1]. cbn [fst snd] in *.
      eapply refines_bind; [apply refines_lift|]. cbn beta. intros anpl1 a' m' [-> ->].
      eapply refines_bind; [apply refines_lift|]. cbn beta. intros next a' m' [-> ->].
      set (nv1 := nv_set_rng nv g) in *.
      assert (Hj : (j < length (nv_layers nv1))%nat) by (cbn; by eapply lookup_lt_Some).
      assert (R1' : NR m1 (nv_set nv1 j lv)) by (by rewrite nv_set_id).
      cbn [layer_rec l_type].
      eapply (refines_bind _ _ _ _ _ (fun norm _ m' => NR m' (nv_set nv1 j (lv_set_norm lv norm)))).
      { destruct (is_softmax (lv_type lv)).
        - eapply refines_impl; [by apply (norm_set_ref m1 nv1 lv)|]. cbn beta. by intros ??? [? _].
        - apply refines_ret. by destruct lv. }
      cbn beta. intros norm [] m2 R2.
      eapply refines_bind.
      { eapply (refines_fold _ _ (fun b a m' => a = b.2 /\ NR m' (nv_set nv1 j (lv_set_nodes (lv_set_norm lv norm) b.1)))).
        - intros [vs [nx mx]] a m3 p _ [-> R3]. cbn [fst snd] in *.
          exact (activate_node_ref m3 nv1 (lv_set_norm lv norm) vs nx mx cur i p R3 Hj).
        - cbn [fst snd]. split; [done|]. exact R2. }
      cbn beta. intros [vs [nx mx]] [nx' mx'] m3 [[= -> ->] R3]. cbn [fst snd] in *.
      eapply (refines_bind _ _ _ _ _ (fun b a m' => a = b.2 /\ NR m' (nv_set nv1 j (lv_set_norm (lv_set_nodes lv b.1.1) b.1.2)))).
      { destruct (is_softmax (lv_type lv)).
        - eapply (refines_fold _ _ (fun b a m' => a = b.2 /\ NR m' (nv_set nv1 j (lv_set_norm (lv_set_nodes lv b.1.1) b.1.2)))).
          + intros [[vs' norm'] nx'] a m4' p _ [-> R4]. cbn [fst snd] in *.
            exact (softmax_node_ref m4' nv1 lv vs' norm' nx' i mx p R4 Hj).
          + cbn [fst snd]. split; [done|]. exact R3.
        - apply refines_ret. cbn [fst snd]. split; [done|]. exact R3. }
      cbn beta. intros [[vs' norm'] nx'] a m5 [-> R5]. cbn [fst snd] in *.
      eapply refines_bind; [apply refines_lift|]. cbn beta. intros anpl2 a' m' [-> ->].
      apply refines_ret. cbn [fst snd]. split; [done|]. exact R5.
    Qed.
  End AtLayer.

  Lemma forward_layer_ref m nv anpl ins i label sparsity offset j :
    NR m nv ->
    refines (forward_layer E c arr i label sparsity offset (anpl, ins) j m)
      (ref_forward_layer E i label sparsity offset (anpl, ins, nv) j)
      (fun b a m' => a = b.1 /\ NR m' b.2).
  Proof.
    intros R. unfold forward_layer, ref_forward_layer.
    eapply refines_skip; [apply load_Ok, R|].
    pose proof (ni_layer c arr lls m nv j R) as Hg.
    destruct (sget (nv_layers nv) j) as [lv|q] eqn:Ev; cbn [mbind res_bind];
      [|unfold mbind at 1, M_bind; rewrite Hg; done].
    destruct Hg as (ll & Hll & Hp & L & Hj).
    eapply refines_skip; [by rewrite Hp|].
    eapply refines_bind; [apply refines_lift|]. cbn beta. intros sp sp' m' [-> ->].
    eapply refines_bind; [eapply (query_gen (Z.to_nat j)); [exact Hll|exact R|by apply sget_Ok in Ev as [_ ?]]|].
    cbn beta. intros [[[in_ anpl'] lv'] g] a m1 [-> R1]. cbn [fst snd] in *.
    eapply refines_skip; [apply load_Ok, R1|].
    eapply refines_skip. { by rewrite (sset_id _ _ _ Hp). }
    eapply refines_skip. { apply store_la_id, R1. }
    apply refines_ret. split; [done|]. exact R1.
  Qed.

  Lemma forward_ref m nv n i feats label offset : NR m nv -> nw_layers n = arr ->
    refines (forward E c n i feats label offset m)
      (ref_forward E (nw_num n) (nw_sparsity n) nv i feats label offset)
      (fun b a m' => a = b.1 /\ NR m' b.2).
  Proof.
    intros R Hn. unfold forward, ref_forward. rewrite Hn.
    eapply refines_bind; [apply refines_lift|]. cbn beta. intros anpl a' m' [-> ->].
    eapply refines_bind; [apply refines_lift|]. cbn beta. intros anpl1 a' m' [-> ->].
    eapply refines_skip; [apply load_Ok, R|].
    rewrite map_length, (ni_len _ _ _ _ _ R).
    eapply (refines_fold _ _ (fun b a m' => a = b.1 /\ NR m' b.2)); [|done].
    intros [[an ins] nv1] a m1 x _ [-> R1]. cbn [fst snd] in *. by apply forward_layer_ref.
  Qed.

  (** GetNodeById *)
  Lemma get_node_ref m nv j ll lv k : NR m nv -> lls !! j = Some ll -> nv_layers nv !! j = Some lv ->
    refines (layer_GetNodeById (ll_ptr ll) k m) (sget (lv_nodes lv) k)
      (fun v n m' => m' = m /\ sget (lv_nodes lv) k = Ok v /\ sget (ll_ns ll) k = Ok n /\ exists ly, ll_lys ll !! Z.to_nat k = Some ly /\ ly_ok ly /\ rep m c n ly v).
  Proof.
    intros R Hll Hlv. pose proof (ni_at _ _ _ _ _ R _ _ _ Hll Hlv) as L.
    unfold layer_GetNodeById.
    eapply refines_skip; [apply load_Ok, L|]. cbn [layer_rec l_nodes].
    eapply refines_skip; [apply load_Ok, L|].
    pose proof (reps_get _ _ _ _ _ k (lr_nodes _ _ _ _ L)) as Hg.
    destruct (sget (lv_nodes lv) k) as [v|q]; cbn [refines]; [|by rewrite Hg].
    destruct Hg as (n & ly & Hn & Hly & Hin & Rn). exists n, m. rewrite Hn. split; [done|]. split; [done|]. split; [done|]. split; [done|].
    exists ly. split; [done|]. split; [|done]. eapply Forall_forall; [|exact Hin]. by eapply (lo_ok _ LO).
  Qed.

  Lemma argmax_ref m nv j ll lv i st ip : NR m nv -> lls !! j = Some ll -> nv_layers nv !! j = Some lv ->
    refines (argmax_step (ll_ptr ll) i st ip m) (ref_argmax (lv_nodes lv) i st ip) (fun b a m' => a = b /\ m' = m).
  Proof.
    intros R Hll Hlv. unfold argmax_step, ref_argmax. destruct st as [mx cl], ip as [k p].
    eapply refines_bind; [by eapply get_node_ref|]. cbn beta. intros v n m' (-> & _ & _ & ly & _ & OK & Rn).
    eapply refines_bind; [by eapply GetLastActivation_rep|]. cbn beta. intros s a m' [-> ->].
    by apply refines_ret.
  Qed.

  Lemma predict_one_ref m nv n ll i ex : NR m nv -> nw_layers n = arr ->
    0 <= nw_num n - 1 -> lls !! Z.to_nat (nw_num n - 1) = Some ll ->
    refines (predict_one E c n (ll_ptr ll) i ex m) (ref_predict_one E (nw_num n) (nw_sparsity n) nv i ex)
      (fun b a m' => a = b.1 /\ NR m' b.2).
  Proof.
    intros R Hn H0 Hll. unfold predict_one, ref_predict_one.
    eapply refines_bind; [by apply forward_ref|]. cbn beta.
    intros [[anpl ins] nv1] a m1 [-> R1]. cbn [fst snd] in *.
    eapply refines_bind; [apply refines_lift|]. cbn beta. intros out a' m' [-> ->].
    pose proof (lookup_lt_Some _ _ _ Hll) as Hlt. rewrite (ni_len _ _ _ _ _ R1) in Hlt.
    destruct (lookup_lt_is_Some_2 _ _ Hlt) as [lv Hlv].
    rewrite (proj2 (sget_Ok (nv_layers nv1) (nw_num n - 1) lv)) by done. cbn [mbind res_bind].
    eapply refines_bind.
    { eapply (refines_fold _ _ (fun b a m' => a = b /\ m' = m1)); [|done].
      intros b a m2 x _ [-> ->]. by eapply argmax_ref. }
    cbn beta. intros [mx cl] a m2 [-> ->]. by apply refines_ret.
  Qed.

  Lemma predict_gen m nv n exs : NR m nv -> nw_layers n = arr -> nw_cowId n = c ->
    refines (network_PredictClass E c n exs m) (ref_predict E (nw_num n) (nw_sparsity n) nv exs)
      (fun b a m' => a = (b.1, n) /\ NR m' b.2).
  Proof.
    intros R Hn Hc. unfold network_PredictClass, ref_predict, network_cloneIfNeeded.
    rewrite Hc, Z.eqb_refl, Hn.
    eapply refines_skip; [apply load_Ok, R|].
    pose proof (ni_layer c arr lls m nv (nw_num n - 1) R) as Hg.
    destruct (sget (nv_layers nv) (nw_num n - 1)) as [lv|q] eqn:Ev; cbn [mbind res_bind];
      [|unfold mbind at 1, M_bind; rewrite Hg; done].
    destruct Hg as (ll & Hll & Hp & L & Hj).
    eapply refines_skip; [by rewrite Hp|].
    eapply refines_bind_inv.
    { eapply (refines_fold _ _ (fun b a m' => a = b.1 /\ NR m' b.2)); [|done].
      intros [k nv1] a m1 [i ex] _ [-> R1]. cbn [fst snd] in *.
      eapply refines_bind; [by apply predict_one_ref|]. cbn beta.
      intros [cl nv2] a m2 [-> R2]. apply refines_ret. done. }
    cbn beta. intros [k nv1] a m1 [-> R1]. apply refines_ret. done.
  Qed.
End Query.

(** Without anything else. *)
Lemma query_ref E c arr lls (LO : lays_ok lls) j ll (Hll : lls !! j = Some ll) m nv lv anpl li i label sp :
  net_rep m c arr lls nv -> nv_layers nv !! j = Some lv ->
  refines (layer_Query E c (ll_ptr ll) anpl li i label sp m)
    (ref_query E lv anpl li i label sp (nv_rng nv))
    (fun b a m' => a = (b.1.1.1, b.1.1.2, ll_ptr ll) /\
       net_rep m' c arr lls (mkNV (<[j := b.1.2]> (nv_layers nv)) b.2 (nv_seeds nv))).
Proof.
  intros R%net_inv_True Hlv. eapply refines_impl; [exact (query_gen E c arr lls LO j ll Hll m nv lv anpl li i label sp R Hlv)|]. cbn beta. intros b a m' [-> R'%net_inv_True]. done.
Qed.
Lemma predict_ref E c arr lls (LO : lays_ok lls) m nv n exs : net_rep m c arr lls nv -> nw_layers n = arr -> nw_cowId n = c ->
  refines (network_PredictClass E c n exs m) (ref_predict E (nw_num n) (nw_sparsity n) nv exs)
    (fun b a m' => a = (b.1, n) /\ net_rep m' c arr lls b.2).
Proof.
  intros R%net_inv_True Hn Hc. eapply refines_impl; [exact (predict_gen E c arr lls LO m nv n exs R Hn Hc)|]. cbn beta. intros b a m' [-> R'%net_inv_True]. done.
Qed.
