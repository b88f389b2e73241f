(** Changing one part of a network in memory changes that part of its content and nothing else. *)
From Verif.Spec Require Export NetSpec.
From Verif.Proofs Require Export NodeMore.
From Coq Require Import Lia ZifyBool ZifyNat.

Lemma touched_array T B S m m' a : touched T B S m m' -> (forall s, s ∈ S -> fs_len s <= 0 \/ fs_loc s <> a) ->
  m_f m' !! a = m_f m !! a.
Proof.
  intros T0 HS. pose proof (tc_shape _ _ _ _ _ T0) as Hsh.
  assert (HL : length <$> m_f m' !! a = length <$> m_f m !! a) by (rewrite <- !list_lookup_fmap; by f_equal).
  destruct (m_f m !! a) as [xs|] eqn:E1, (m_f m' !! a) as [ys|] eqn:E2; cbn in HL; try done.
  injection HL as HL.
  pose proof (tc_f _ _ _ _ _ T0 (mkFs a 0 (Z.of_nat (length xs)))) as Hf.
  unfold felems, fslice_read in Hf. cbn [fs_loc fs_off fs_len] in Hf.
  destruct (Z.leb_spec (Z.of_nat (length xs)) 0).
  { destruct xs; [|cbn in *; lia]. destruct ys; [done|cbn in *; lia]. }
  rewrite E1, E2 in Hf. cbn [mbind option_bind] in Hf.
  rewrite HL in Hf. replace ((0 <=? 0) && (0 + Z.of_nat (length xs) <=? Z.of_nat (length xs))) with true in Hf by lia.
  rewrite !take_ge in Hf by (rewrite drop_length; lia). cbn in Hf. apply Hf.
  intros s Hs. destruct (HS _ Hs) as [?|Hne]; unfold sdisj; cbn; [lia|]. right. right. left. congruence.
Qed.

(** * A network in memory together with something else
    A property [P] of memory is stable when no write to the objects of [lls] can break it. *)
Class Stable (lls : list LayerLay) (P : mem -> Prop) : Prop := mkStable {
  st_touch : forall T B S m m', P m -> touched T B S m m' ->
    (forall l, l ∈ T -> exists ll ly, ll ∈ lls /\ ly ∈ ll_lys ll /\ l ∈ ly_trs ly) ->
    (forall l, l ∈ B -> exists ll ly, ll ∈ lls /\ ly ∈ ll_lys ll /\ l = ly_base ly) ->
    (forall s, s ∈ S -> exists ll ly, ll ∈ lls /\ ly ∈ ll_lys ll /\ s ∈ ly_slices ly) -> P m';
  st_norm : forall m ll a xs, P m -> ll ∈ lls -> ll_norm ll = Some a -> P (upd_f (fun r => <[a := xs]> r) m);
  st_tables : forall m ll t, P m -> ll ∈ lls -> P (upd_lsh (fun r => <[ll_tables ll := t]> r) m);
  st_rand : forall m ll t, P m -> ll ∈ lls -> P (upd_ia (fun r => <[ll_rand ll := t]> r) m);
  st_layer : forall m ll t, P m -> ll ∈ lls -> P (upd_layer (fun r => <[ll_ptr ll := t]> r) m);
  st_rng : forall m g, P m -> P (upd_rng g m);
  st_seeds : forall m s, P m -> P (upd_seeds s m)
}.
Global Instance stable_true lls : Stable lls (fun _ => True).
Proof. by constructor. Qed.

(** [net_rep] with [P]. *)
Record net_inv (P : mem -> Prop) (m : mem) (c : Z) (arr : nat) (lls : list LayerLay) (nv : NetView) : Prop := mkNetInv {
  ni_arr : m_la m !! arr = Some (map ll_ptr lls);
  ni_len : length lls = length (nv_layers nv);
  ni_at : forall j ll lv, lls !! j = Some ll -> nv_layers nv !! j = Some lv -> layer_rep m c ll lv;
  ni_rng : m_rng m = nv_rng nv;
  ni_seeds : m_seeds m = nv_seeds nv;
  ni_ext : P m
}.
Global Arguments ni_arr {P}. Global Arguments ni_len {P}. Global Arguments ni_at {P}.
Global Arguments ni_rng {P}. Global Arguments ni_seeds {P}. Global Arguments ni_ext {P}.
Lemma net_inv_rep P m c arr lls nv : net_inv P m c arr lls nv <-> net_rep m c arr lls nv /\ P m.
Proof. split; [intros []; split; [by constructor|done]|]. intros [[] ?]. by constructor. Qed.
Lemma net_inv_True m c arr lls nv : net_inv (fun _ => True) m c arr lls nv <-> net_rep m c arr lls nv.
Proof. rewrite net_inv_rep. tauto. Qed.

Section Frame.
  Context {P : mem -> Prop}.
  Context (c : Z) (arr : nat) (lls : list LayerLay) (LO : lays_ok lls) {ST : Stable lls P}.
  Notation NR m nv := (net_inv P m c arr lls nv).

  Lemma ni_layer m nv j : NR m nv ->
    match sget (nv_layers nv) j with
    | Ok lv => exists ll, lls !! Z.to_nat j = Some ll /\ sget (map ll_ptr lls) j = Ok (ll_ptr ll) /\ layer_rep m c ll lv /\ 0 <= j
    | Panic p => sget (map ll_ptr lls) j = Panic p
    end.
  Proof.
    intros R. pose proof (ni_len _ _ _ _ _ R) as HL. destruct (sget (nv_layers nv) j) as [lv|p] eqn:E.
    - apply sget_Ok in E as [Hj E]. pose proof (lookup_lt_Some _ _ _ E) as Hlt.
      destruct (lookup_lt_is_Some_2 lls (Z.to_nat j)) as [ll Hll]; [lia|].
      exists ll. split; [done|]. split.
      { apply sget_Ok. split; [done|]. rewrite list_lookup_fmap, Hll. done. }
      split; [|done]. by eapply (ni_at _ _ _ _ _ R).
    - revert E. unfold sget. destruct (j <? 0); [by intros [= ->]|].
      destruct (nv_layers nv !! Z.to_nat j) eqn:E; [done|]. apply lookup_ge_None in E.
      rewrite lookup_ge_None_2; [by intros [= ->]|]. rewrite map_length. lia.
  Qed.

  Lemma nv_set_lookup nv j lv : (j < length (nv_layers nv))%nat -> nv_layers (nv_set nv j lv) !! j = Some lv.
  Proof. intros. cbn. by rewrite list_lookup_insert. Qed.
  Lemma nv_set_set nv j lv lv' : nv_set (nv_set nv j lv) j lv' = nv_set nv j lv'.
  Proof. unfold nv_set. cbn. by rewrite list_insert_insert. Qed.
  Lemma nv_set_id nv j lv : nv_layers nv !! j = Some lv -> nv_set nv j lv = nv.
  Proof. intros H. unfold nv_set. rewrite list_insert_id by done. by destruct nv. Qed.

  (** Replacing layer [j], given that the other layers are still represented. *)
  Lemma net_step m m' nv j ll lv lv' : NR m nv -> lls !! j = Some ll -> nv_layers nv !! j = Some lv ->
    m_la m' = m_la m -> m_rng m' = m_rng m -> m_seeds m' = m_seeds m ->
    layer_rep m' c ll lv' ->
    (forall k llk lvk, k <> j -> lls !! k = Some llk -> layer_rep m c llk lvk -> layer_rep m' c llk lvk) ->
    P m' -> NR m' (nv_set nv j lv').
  Proof.
    intros [Ha HL Hat Hr Hs _] Hll Hlv E1 E2 E3 R' HK HP. constructor; [..|exact HP].
    - by rewrite E1.
    - cbn. by rewrite insert_length.
    - intros k llk lvk Hk Hk'. cbn in Hk'. destruct (decide (k = j)) as [->|Hne].
      + rewrite list_lookup_insert in Hk' by (by eapply lookup_lt_Some). injection Hk' as <-.
        rewrite Hll in Hk. by injection Hk as <-.
      + rewrite list_lookup_insert_ne in Hk' by done. apply (HK k); [done|done|]. by eapply Hat.
    - cbn. congruence.
    - cbn. congruence.
  Qed.

  (** A frame that stays within node [i] of layer [j]. *)
  Lemma net_node m m' nv j i ll ly n lv v' : NR m nv -> lls !! j = Some ll -> nv_layers nv !! j = Some lv ->
    ll_lys ll !! i = Some ly -> ll_ns ll !! i = Some n ->
    rep m' c n ly v' -> tnode ly m m' -> NR m' (nv_set nv j (lv_set_nodes lv (<[i := v']> (lv_nodes lv)))).
  Proof.
    intros R Hll Hlv Hly Hn R' T.
    assert (Hin : ly ∈ ll_lys ll) by (by eapply elem_of_list_lookup_2).
    assert (HN : forall k llk a, lls !! k = Some llk -> ll_norm llk = Some a -> m_f m' !! a = m_f m !! a).
    { intros k llk a Hk Ha. eapply touched_array; [exact T|]. intros s Hs. by eapply (lo_slices _ LO k j). }
    eapply net_step; [exact R|exact Hll|exact Hlv|apply T|apply T|apply T| | |].
    3:{ eapply (st_touch (lls := lls) _ _ _ _ _ (ni_ext _ _ _ _ _ R) T).
        - intros l Hl. exists ll, ly. split; [by eapply elem_of_list_lookup_2|done].
        - intros l ->%elem_of_list_singleton. exists ll, ly. split; [by eapply elem_of_list_lookup_2|done].
        - intros l Hl. exists ll, ly. split; [by eapply elem_of_list_lookup_2|done]. }
    - pose proof (ni_at _ _ _ _ _ R _ _ _ Hll Hlv) as [L1 L2 L3 L4 L5 L6].
      constructor; cbn.
      + rewrite (tc_layer _ _ _ _ _ T). exact L1.
      + rewrite (tc_na _ _ _ _ _ T). exact L2.
      + rewrite (tc_ia _ _ _ _ _ T). exact L3.
      + destruct (ll_norm ll) eqn:En; [|done]. by rewrite (HN _ _ _ Hll En).
      + rewrite (tc_lsh _ _ _ _ _ T). exact L5.
      + eapply reps_update; [exact L6| |exact Hn|exact Hly|exact R'|exact T].
        intros x y a b Hxy Hx Hy. eapply (lo_apart _ LO j j); [done..|]. congruence.
    - intros k llk lvk Hne Hk [L1 L2 L3 L4 L5 L6]. constructor.
      + rewrite (tc_layer _ _ _ _ _ T). exact L1.
      + rewrite (tc_na _ _ _ _ _ T). exact L2.
      + rewrite (tc_ia _ _ _ _ _ T). exact L3.
      + destruct (ll_norm llk) eqn:En; [|done]. by rewrite (HN _ _ _ Hk En).
      + rewrite (tc_lsh _ _ _ _ _ T). exact L5.
      + eapply reps_frame; [exact L6|exact T|]. apply Forall_lookup. intros x lyx Hx.
        apply apart_avoids_node. eapply (lo_apart _ LO k j); [done..|]. congruence.
  Qed.

  Lemma felems_other m a xs s : fs_len s <= 0 \/ fs_loc s <> a -> felems (upd_f (fun r => <[a := xs]> r) m) s = felems m s.
  Proof.
    intros H. unfold felems. destruct (Z.leb_spec (fs_len s) 0); [done|]. cbn. rewrite list_lookup_insert_ne; [done|].
    destruct H; [lia|congruence].
  Qed.

  Lemma rep_upd_f m n ly v a xs : rep m c n ly v -> (forall s, s ∈ ly_slices ly -> fs_len s <= 0 \/ fs_loc s <> a) ->
    rep (upd_f (fun r => <[a := xs]> r) m) c n ly v.
  Proof.
    intros [] H. constructor; try done; rewrite felems_other; try done; apply H; set_solver.
  Qed.

  Lemma net_norm m nv j ll lv a xs : NR m nv -> lls !! j = Some ll -> nv_layers nv !! j = Some lv ->
    ll_norm ll = Some a -> NR (upd_f (fun r => <[a := xs]> r) m) (nv_set nv j (lv_set_norm lv xs)).
  Proof.
    intros R Hll Hlv Ha.
    assert (HR : forall k llk lvk, lls !! k = Some llk -> layer_rep m c llk lvk ->
      reps (upd_f (fun r => <[a := xs]> r) m) c (ll_ns llk) (ll_lys llk) (lv_nodes lvk)).
    { intros k llk lvk Hk L. destruct (lr_nodes _ _ _ _ L) as [L1 L2 L3]. constructor; [done..|].
      intros x n ly v Hn Hly Hv. eapply rep_upd_f; [by eapply L3|]. intros s Hs.
      eapply (lo_slices _ LO j k); [done..| |done]. by eapply elem_of_list_lookup_2. }
    pose proof (ni_at _ _ _ _ _ R _ _ _ Hll Hlv) as L.
    eapply net_step; [exact R|exact Hll|exact Hlv|done..| | |].
    3:{ eapply st_norm; [apply R|by eapply elem_of_list_lookup_2|done]. }
    - pose proof (HR _ _ _ Hll L) as Hreps. destruct L as [L1 L2 L3 L4 L5 L6]. constructor; cbn; try done.
      rewrite Ha in *. rewrite list_lookup_insert; [done|]. by eapply lookup_lt_Some.
    - intros k llk lvk Hne Hk L'. pose proof (HR _ _ _ Hk L') as Hreps. destruct L' as [L1 L2 L3 L4 L5 L6]. constructor; cbn; try done.
      destruct (ll_norm llk) as [b|] eqn:Eb; [|done]. rewrite list_lookup_insert_ne; [done|]. intros <-.
      apply Hne. by eapply (lo_norm _ LO k j).
  Qed.

  Lemma rep_same m m' n ly v : m_node m' = m_node m -> m_base m' = m_base m -> m_ta m' = m_ta m ->
    m_tr m' = m_tr m -> m_f m' = m_f m -> rep m c n ly v -> rep m' c n ly v.
  Proof.
    intros E1 E2 E3 E4 E5 []. constructor; try (rewrite (felems_same_f m) by done; done).
    - by rewrite E1.
    - by rewrite E2.
    - unfold telems. by rewrite E3.
    - by rewrite E4.
  Qed.
  Lemma reps_same m m' ns lys vs : m_node m' = m_node m -> m_base m' = m_base m -> m_ta m' = m_ta m ->
    m_tr m' = m_tr m -> m_f m' = m_f m -> reps m c ns lys vs -> reps m' c ns lys vs.
  Proof.
    intros ????? []. constructor; [done..|]. intros. eapply (rep_same m); try done. eauto.
  Qed.

  Lemma ptr_inj (f : LayerLay -> nat) j k ll llk : NoDup (map f lls) -> lls !! j = Some ll -> lls !! k = Some llk ->
    f ll = f llk -> j = k.
  Proof.
    intros HN Hj Hk E. eapply NoDup_lookup; [exact HN| |]; rewrite list_lookup_fmap; [by rewrite Hj|]. rewrite Hk. cbn. by rewrite E.
  Qed.

  Lemma net_tables m nv j ll lv t : NR m nv -> lls !! j = Some ll -> nv_layers nv !! j = Some lv ->
    NR (upd_lsh (fun r => <[ll_tables ll := t]> r) m) (nv_set nv j (lv_set_tables lv t)).
  Proof.
    intros R Hll Hlv. pose proof (ni_at _ _ _ _ _ R _ _ _ Hll Hlv) as L.
    eapply net_step; [exact R|exact Hll|exact Hlv|done..| | |].
    3:{ eapply st_tables; [apply R|by eapply elem_of_list_lookup_2]. }
    - destruct L as [L1 L2 L3 L4 L5 L6]. constructor; cbn; try done.
      + rewrite list_lookup_insert; [done|]. by eapply lookup_lt_Some.
      + by eapply (reps_same m).
    - intros k llk lvk Hne Hk [L1 L2 L3 L4 L5 L6]. constructor; cbn; try done.
      + rewrite list_lookup_insert_ne; [done|]. intros E. apply Hne. symmetry.
        by eapply (ptr_inj ll_tables); [apply LO|..].
      + by eapply (reps_same m).
  Qed.

  Lemma net_rand m nv j ll lv t : NR m nv -> lls !! j = Some ll -> nv_layers nv !! j = Some lv ->
    NR (upd_ia (fun r => <[ll_rand ll := t]> r) m) (nv_set nv j (lv_set_rand lv t)).
  Proof.
    intros R Hll Hlv. pose proof (ni_at _ _ _ _ _ R _ _ _ Hll Hlv) as L.
    eapply net_step; [exact R|exact Hll|exact Hlv|done..| | |].
    3:{ eapply st_rand; [apply R|by eapply elem_of_list_lookup_2]. }
    - destruct L as [L1 L2 L3 L4 L5 L6]. constructor; cbn; try done.
      + rewrite list_lookup_insert; [done|]. by eapply lookup_lt_Some.
      + by eapply (reps_same m).
    - intros k llk lvk Hne Hk [L1 L2 L3 L4 L5 L6]. constructor; cbn; try done.
      + rewrite list_lookup_insert_ne; [done|]. intros E. apply Hne. symmetry.
        by eapply (ptr_inj ll_rand); [apply LO|..].
      + by eapply (reps_same m).
  Qed.

  Lemma net_hash m nv j ll lv h : NR m nv -> lls !! j = Some ll -> nv_layers nv !! j = Some lv ->
    NR (upd_layer (fun r => <[ll_ptr ll := layer_rec c ll (lv_set_hash lv h)]> r) m) (nv_set nv j (lv_set_hash lv h)).
  Proof.
    intros R Hll Hlv. pose proof (ni_at _ _ _ _ _ R _ _ _ Hll Hlv) as L.
    eapply net_step; [exact R|exact Hll|exact Hlv|done..| | |].
    3:{ eapply st_layer; [apply R|by eapply elem_of_list_lookup_2]. }
    - destruct L as [L1 L2 L3 L4 L5 L6]. constructor; cbn; try done.
      + rewrite list_lookup_insert; [done|]. by eapply lookup_lt_Some.
      + by eapply (reps_same m).
    - intros k llk lvk Hne Hk [L1 L2 L3 L4 L5 L6]. constructor; cbn; try done.
      + rewrite list_lookup_insert_ne; [done|]. intros E. apply Hne. symmetry.
        by eapply (ptr_inj ll_ptr); [apply LO|..].
      + by eapply (reps_same m).
  Qed.

  Lemma layer_same m m' ll lv : m_node m' = m_node m -> m_base m' = m_base m -> m_ta m' = m_ta m ->
    m_tr m' = m_tr m -> m_f m' = m_f m -> m_layer m' = m_layer m -> m_na m' = m_na m -> m_ia m' = m_ia m ->
    m_lsh m' = m_lsh m -> layer_rep m c ll lv -> layer_rep m' c ll lv.
  Proof.
    intros E1 E2 E3 E4 E5 E6 E7 E8 E9 []. constructor; try congruence.
    - by rewrite E5.
    - by eapply (reps_same m).
  Qed.

  Lemma net_rng m nv g : NR m nv -> NR (upd_rng g m) (nv_set_rng nv g).
  Proof.
    intros []. constructor; try done; [|by apply st_rng]. intros. eapply (layer_same m); try done. eauto.
  Qed.
  Lemma net_seeds m nv g s : NR m nv -> NR (upd_seeds s (upd_rng g m)) (mkNV (nv_layers nv) g s).
  Proof.
    intros []. constructor; try done; [|by apply st_seeds, st_rng]. intros. eapply (layer_same m); try done. eauto.
  Qed.
End Frame.
