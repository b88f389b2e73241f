(** The shape of a network is kept by every call. *)
From Verif.Spec Require Export ShapeSpec.
From Verif.Proofs Require Export NetUpdate.
From Coq Require Import Lia ZifyBool ZifyNat.
Local Open Scope Z_scope.

(** The hash functions made by the code are the ones described. *)
Lemma make_hashers_made E h0 s k l prev g h g' : make_hashers E h0 (e_mh E s) k l prev g = Ok (h, g') -> made_hashers E k l prev h.
Proof.
  unfold make_hashers, made_hashers. intros H. destruct (e_Hash E); [| | | |done].
  - binv H as [w g1] E1. injection H as <- <-. by exists g, w, g1.
  - binv H as bs E1. binv H as [d g1] E2. injection H as <- <-. by exists g, d, g1.
  - destruct (mn_New _ _ _ _ _) as [mn g1] eqn:E1. binv H as bs E2. injection H as <- <-. by exists s, g, mn, g1.
  - binv H as [w g1] E1. injection H as <- <-. by exists g, w, g1.
Qed.

(** Same identity and lengths. *)
Record node_kept (v v' : NodeView) : Prop := mkNodeKept {
  nk_id : identity v' = identity v;
  nk_w : length (v_w v') = length (v_w v); nk_mom : length (v_mom v') = length (v_mom v);
  nk_vel : length (v_vel v') = length (v_vel v); nk_t : length (v_t v') = length (v_t v);
  nk_slots : length (v_slots v') = length (v_slots v)
}.
Lemma same_node_kept I v v' : same_but I v v' -> node_kept v v'.
Proof.
  intros [HL HI Hs _]. unfold learned in HL. injection HL as H1 H2 H3 H4 _ _ _ _ _. by constructor; rewrite ?H1, ?H2, ?H3, ?H4.
Qed.
Lemma learned_kept v v' : learned v' = learned v -> identity v' = identity v -> length (v_slots v') = length (v_slots v) -> node_kept v v'.
Proof. intros HL HI HS. unfold learned in HL. injection HL as H1 H2 H3 H4 _ _ _ _ _. by constructor; rewrite ?H1, ?H2, ?H3, ?H4. Qed.
Lemma accumulate_length f xs cur : length (accumulate f xs cur) = length xs.
Proof. unfold accumulate. revert xs. induction cur as [|q cur IH]; intros xs; [done|]. cbn [fold_left]. rewrite IH. apply alter_length. Qed.
Lemma gradient_kept adam lr first cur d v : node_kept v (gradient adam lr first cur d v).
Proof. destruct adam; constructor; try done; cbn; apply accumulate_length. Qed.
Lemma node_kept_trans v1 v2 v3 : node_kept v1 v2 -> node_kept v2 v3 -> node_kept v1 v3.
Proof. intros [] []. constructor; congruence. Qed.
Lemma updated_kept adam lr v v' : updated adam lr v v' -> node_kept v v' /\ v_slots v' = v_slots v.
Proof.
  destruct adam; cbn [updated].
  - intros [(H1 & H2 & H3 & H4) _ _ [H5 H6]]. split; [|done]. constructor; try done. by rewrite H6.
  - intros ->. by split.
Qed.

Lemma shape_move E batch size prev ty k l rp lv lv' :
  layer_shape E batch size prev ty k l rp lv ->
  lv_type lv' = lv_type lv -> lv_k lv' = lv_k lv -> lv_l lv' = lv_l lv -> lv_prev lv' = lv_prev lv ->
  lv_rand lv' ≡ₚ lv_rand lv -> length (lv_norm lv') = length (lv_norm lv) ->
  used_tables k l rp size (lv_tables lv') -> made_hashers E k l (Z.of_nat prev) (lv_hash lv') ->
  Forall2 node_kept (lv_nodes lv) (lv_nodes lv') -> lv_calm lv' ->
  layer_shape E batch size prev ty k l rp lv'.
Proof.
  intros [S1 S2 S3 S4 S5 S6 S7 S8 S9 S10] H1 H2 H3 H4 H5 H6 H7 H8 H9 H10. constructor; try congruence.
  - by rewrite <- (Forall2_length _ _ _ H9).
  - intros i v' Hv'. destruct (Forall2_lookup_r _ _ _ _ _ H9 Hv') as (v & Hv & []). destruct (S6 _ _ Hv) as [T1 T2 (T3 & T4 & T5) T6 T7].
    constructor; [congruence|congruence| |congruence|].
    + by rewrite nk_mom0, nk_vel0, nk_t0.
    + unfold lv_calm in H10. rewrite Forall_lookup in H10. exact (H10 _ _ Hv').
  - by rewrite H5.
Qed.
Lemma shape_placed E batch size prev ty k l rp lv : layer_shape E batch size prev ty k l rp lv -> placed (Z.of_nat batch) lv.
Proof. intros S i v Hv. pose proof (sh_identity _ _ _ _ _ _ (ss_nodes _ _ _ _ _ _ _ _ _ S _ _ Hv)) as HI. unfold identity in HI. by injection HI as _ -> ->. Qed.
Lemma shape_calm E batch size prev ty k l rp lv : layer_shape E batch size prev ty k l rp lv -> lv_calm lv.
Proof. intros S. apply Forall_lookup. intros i v Hv. exact (sh_calm _ _ _ _ _ _ (ss_nodes _ _ _ _ _ _ _ _ _ S _ _ Hv)). Qed.

(** * Training *)
Lemma example_kept E batch sps lr ex L L' j lv lv' : example_step E batch sps lr ex L L' ->
  L !! j = Some lv -> L' !! j = Some lv' ->
  Forall2 (fun v v' => length (v_slots v') = length (v_slots v)) (lv_nodes lv) (lv_nodes lv') ->
  layer_kept lv lv' /\ Forall2 node_kept (lv_nodes lv) (lv_nodes lv').
Proof.
  intros [HK (outs & ds & (HI1 & _) & (HE1 & HE2) & HN)] Hlv Hlv' HS. pose proof (Forall2_lookup_lr _ _ _ _ _ _ HK Hlv Hlv') as LK. split; [done|].
  pose proof (lookup_lt_Some _ _ _ Hlv) as Hj.
  destruct (lookup_lt_is_Some_2 outs j) as [cur Hcur]; [lia|]. destruct (lookup_lt_is_Some_2 outs (S j)) as [out Hout]; [lia|].
  destruct (lookup_lt_is_Some_2 ds j) as [d Hd]; [lia|].
  destruct (HN _ _ _ _ _ _ Hlv Hlv' Hcur Hout Hd) as [_ HN'].
  assert (Hlen : length d = length out).
  { rewrite (HE2 _ _ _ Hout Hd). destruct (L !! S j); [destruct (outs !! S (S j)); [destruct (ds !! S j)|]|]; apply map_length. }
  apply Forall2_same_length_lookup_2; [symmetry; apply LK|]. intros k v v' Hv Hv'.
  pose proof (Forall2_lookup_lr _ _ _ _ _ _ HS Hv Hv') as Hsl. cbn in Hsl.
  destruct (HN' _ _ _ Hv Hv') as (HI & Hin & Hnin).
  destruct (decide (Z.of_nat k ∈ map iv_index out)) as [Hk|Hk].
  - apply elem_of_list_lookup in Hk as [a Ha]. apply list_lookup_fmap_inv in Ha as (p & Hp & Ha).
    destruct (lookup_lt_is_Some_2 d a) as [x Hx]; [rewrite Hlen; by eapply lookup_lt_Some|].
    pose proof (Hin _ _ _ Ha (eq_sym Hp) Hx) as HL.
    eapply node_kept_trans; [apply gradient_kept|]. eapply learned_kept; [exact HL| |].
    + by rewrite gradient_identity.
    + by rewrite gradient_slots.
  - by apply learned_kept; [apply Hnin|..].
Qed.

Definition all_shape (E : env) (batch : nat) (cfg : list (nat * nat * NodeType * Z * Z * Z)) (lvs : list LayerView) : Prop :=
  Forall2 (fun '(size, prev, ty, k, l, rp) lv => layer_shape E batch size prev ty k l rp lv) cfg lvs.
Lemma all_shape_placed E batch cfg lvs : all_shape E batch cfg lvs -> Forall (placed (Z.of_nat batch)) lvs.
Proof.
  intros H. apply Forall_lookup. intros j lv Hlv. destruct (Forall2_lookup_r _ _ _ _ _ H Hlv) as ([[[[[? ?] ?] ?] ?] ?] & _ & S). by eapply shape_placed.
Qed.
Lemma all_shape_calm E batch cfg nv : all_shape E batch cfg (nv_layers nv) -> nv_calm nv.
Proof.
  intros H. apply Forall_lookup. intros j lv Hlv. destruct (Forall2_lookup_r _ _ _ _ _ H Hlv) as ([[[[[? ?] ?] ?] ?] ?] & _ & S). by eapply shape_calm.
Qed.
Lemma all_shape_map E batch cfg lvs lvs' : all_shape E batch cfg lvs -> length lvs' = length lvs ->
  (forall j c lv lv', cfg !! j = Some c -> lvs !! j = Some lv -> lvs' !! j = Some lv' ->
     (fun '(size, prev, ty, k, l, rp) => layer_shape E batch size prev ty k l rp lv -> layer_shape E batch size prev ty k l rp lv') c) ->
  all_shape E batch cfg lvs'.
Proof.
  intros H HL HM. pose proof (Forall2_length _ _ _ H) as HL'. apply Forall2_same_length_lookup_2; [lia|].
  intros j c lv' Hc Hlv'. destruct (lookup_lt_is_Some_2 lvs j) as [lv Hlv]; [rewrite <- HL; by eapply lookup_lt_Some|].
  specialize (HM _ _ _ _ Hc Hlv Hlv'). pose proof (Forall2_lookup_lr _ _ _ _ _ _ H Hc Hlv) as S. destruct c as [[[[[? ?] ?] ?] ?] ?]. by apply HM.
Qed.

Lemma same_shape E batch cfg I nv nv' : all_shape E batch cfg (nv_layers nv) -> net_same_but I nv nv' -> nv_calm nv' -> all_shape E batch cfg (nv_layers nv').
Proof.
  intros H [_ NS] HC. eapply all_shape_map; [exact H|symmetry; by eapply Forall2_length|].
  intros j [[[[[size prev] ty] k] l] rp] lv lv' _ Hlv Hlv' S. destruct (Forall2_lookup_lr _ _ _ _ _ _ NS Hlv Hlv') as [L1 L2 L3 L4 L5 L6 L7 L8 _ L9].
  eapply shape_move; try done.
  - by rewrite L2.
  - rewrite L6. apply S.
  - rewrite L7. apply S.
  - eapply Forall2_impl; [exact L9|]. intros. by eapply same_node_kept.
  - unfold nv_calm in HC. rewrite Forall_lookup in HC. by eapply HC.
Qed.

Lemma train_one_shape E num batch cfg sps lr nv i ex ins nv' :
  num = Z.of_nat (length (nv_layers nv)) -> all_shape E batch cfg (nv_layers nv) ->
  ref_train_one E num sps lr nv (i, ex) = Ok (ins, nv') ->
  example_step E (Z.of_nat batch) sps lr ex (nv_layers nv) (nv_layers nv') /\ all_shape E batch cfg (nv_layers nv') /\
  nv_seeds nv' = nv_seeds nv /\ length (nv_layers nv') = length (nv_layers nv).
Proof.
  intros Hn HS H. destruct (train_one_spec _ _ (Z.of_nat batch) _ _ _ _ _ _ _ Hn (all_shape_calm _ _ _ _ HS) (all_shape_placed _ _ _ _ HS) H) as (HE & HC & Hs & HL).
  pose proof (Forall2_length _ _ _ (es_kept _ _ _ _ _ _ _ HE)) as Hlen.
  split; [done|]. split; [|done]. eapply all_shape_map; [exact HS|done|].
  intros j [[[[[size prev] ty] k] l] rp] lv lv' _ Hlv Hlv' S.
  destruct (example_kept _ _ _ _ _ _ _ _ _ _ HE Hlv Hlv' (HL _ _ _ Hlv Hlv')) as [[K1 K2 K3 K4 K5 K6 K7 K8 K9] NK].
  eapply shape_move; try done.
  - by rewrite K2.
  - rewrite K6. apply S.
  - rewrite K7. apply S.
  - unfold nv_calm in HC. rewrite Forall_lookup in HC. by eapply HC.
Qed.
Lemma train_all_spec E num batch cfg sps lr nv exs ins nv' :
  num = Z.of_nat (length (nv_layers nv)) -> all_shape E batch cfg (nv_layers nv) ->
  ref_train_all E num sps lr nv exs = Ok (ins, nv') ->
  trains E (Z.of_nat batch) sps lr exs (nv_layers nv) (nv_layers nv') /\ all_shape E batch cfg (nv_layers nv') /\
  nv_seeds nv' = nv_seeds nv /\ length (nv_layers nv') = length (nv_layers nv).
Proof.
  intros Hn HS H. unfold ref_train_all in H.
  set (P := fun (pre : list (Z * Example_)) (st : list (list Z) * NetView) =>
    trains E (Z.of_nat batch) sps lr (map snd pre) (nv_layers nv) (nv_layers st.2) /\ all_shape E batch cfg (nv_layers st.2) /\
    nv_seeds st.2 = nv_seeds nv /\ length (nv_layers st.2) = length (nv_layers nv)).
  assert (HP : P (indexed exs) (ins, nv')).
  2:{ unfold P in HP. cbn [snd] in HP. replace (map snd (indexed exs)) with exs in HP; [done|].
      apply list_eq. intros k. change (map snd (indexed exs)) with (snd <$> indexed exs). rewrite list_lookup_fmap. apply option_eq. intros x. split.
      - intros Hx. assert (Hl : indexed exs !! k = Some (Z.of_nat k, x)) by (by apply indexed_lookup). by rewrite Hl.
      - destruct (indexed exs !! k) as [[j y]|] eqn:Ek; [|done]. cbn. intros [= <-]. by apply indexed_lookup in Ek as [_ ?]. }
  revert H. apply foldM_keep.
  - split; [constructor|done].
  - intros pre [i ex] [is1 nv1] [is2 nv2] (H1 & H2 & H3 & H4) _ H. cbn [snd] in *. binv H as [x nv3] E1. injection H as <- <-.
    eapply train_one_shape in E1 as (T1 & T2 & T3 & T4); [|by rewrite H4|done]. unfold P. cbn [snd]. rewrite map_app. cbn [map snd].
    split; [by eapply trains_snoc|]. split; [done|]. split; congruence.
Qed.

(** * The update *)
Lemma insert_all_run E h t ws t' : insert_all E h t ws = Ok t' -> exists ops, lsh_run t ops = Ok t' /\
  Forall (fun o => match o with LAdd _ id => 0 <= id < Z.of_nat (length ws) | LAddSingle _ _ id => 0 <= id < Z.of_nat (length ws) | LClear => True end) ops.
Proof.
  intros H. unfold insert_all in H.
  set (P := fun (pre : list (Z * list float64)) t1 => exists ops, lsh_run t ops = Ok t1 /\
    Forall (fun o => match o with LAdd _ id => 0 <= id < Z.of_nat (length ws) | LAddSingle _ _ id => 0 <= id < Z.of_nat (length ws) | LClear => True end) ops).
  assert (HP : P (indexed ws) t'); [|exact HP]. revert H. apply foldM_keep.
  - by exists [].
  - intros pre [k w] t1 t2 (ops & H1 & H2) Hpre H. apply indexed_take in Hpre as (Hk & Hw & _). cbn [fst snd] in *.
    unfold ref_insert in H. binv H as hs E1. binv H as ix E2. binv H as [rs t3] E3. injection H as <-.
    exists (ops ++ [LAdd ix k]). split.
    + unfold lsh_run in *. rewrite foldM_app, H1. cbn [mbind res_bind foldM lsh_step]. by rewrite E3.
    + apply Forall_app. split; [done|]. apply Forall_singleton. apply lookup_lt_Some in Hw. lia.
Qed.
Lemma used_tables_more k l rp n t t' ops : used_tables k l rp n t -> lsh_run t ops = Ok t' ->
  Forall (fun o => match o with LAdd _ id => 0 <= id < Z.of_nat n | LAddSingle _ _ id => 0 <= id < Z.of_nat n | LClear => True end) ops ->
  used_tables k l rp n t'.
Proof.
  intros (g & t0 & g' & ops0 & H1 & H2 & H3) H4 H5. exists g, t0, g', (ops0 ++ ops). split; [done|]. split; [|by apply Forall_app].
  unfold lsh_run in *. by rewrite foldM_app, H2.
Qed.

Lemma update_layer_shape E batch cfg lr sps rehash rebuild nv j nv' :
  all_shape E batch cfg (nv_layers nv) -> ref_update_layer E lr sps rehash rebuild nv (Z.of_nat j) = Ok nv' ->
  all_shape E batch cfg (nv_layers nv') /\ length (nv_layers nv') = length (nv_layers nv) /\
  (forall j', j' <> j -> nv_layers nv' !! j' = nv_layers nv !! j') /\
  exists lv lv' sp, nv_layers nv !! j = Some lv /\ nv_layers nv' !! j = Some lv' /\ sps !! j = Some sp /\
    layer_updated E lr sp rehash rebuild lv lv' /\
    (rehash && fltb sp fone = true -> insert_all E (lv_hash lv') (lsh_Clear (lv_tables lv)) (map v_w (lv_nodes lv')) = Ok (lv_tables lv')).
Proof.
  intros HS H. apply update_layer_spec in H as (lv & sp & h & vs & t & Hlv & Hsp & Hh & HF & HT & HL).
  assert (HU : Forall2 (updated (e_UseAdam E) lr) (lv_nodes lv) vs) by (eapply Forall2_impl; [exact HF|]; intros; by apply update_params_spec).
  pose proof (lookup_lt_Some _ _ _ Hlv) as Hj.
  rewrite HL. split; [|split; [|split]].
  - eapply all_shape_map; [exact HS|by rewrite insert_length|].
    intros j' [[[[[size prev] ty] k] l] rp] lv0 lv' _ Hlv0 Hlv' S. destruct (decide (j' = j)) as [->|Hne].
    + rewrite Hlv in Hlv0. injection Hlv0 as <-. rewrite list_lookup_insert in Hlv' by done. injection Hlv' as <-.
      assert (Hvs : length vs = size) by (rewrite <- (Forall2_length _ _ _ HF); apply S).
      eapply shape_move; [exact S|done..| | | |].
      * cbn. destruct (rehash && fltb sp fone); [|rewrite HT; apply S].
        apply insert_all_run in HT as (ops & HR & HO). rewrite map_length, Hvs in HO.
        eapply (used_tables_more _ _ _ _ _ _ (LClear :: ops)); [apply S|exact HR|by constructor].
      * cbn. destruct (rebuild && fltb sp fone); [|destruct Hh as [-> _]; apply S]. destruct Hh as [Hh _].
        destruct S as [S1 S2 S3 S4 _ _ _ _ _ _]. rewrite S2, S3, S4 in Hh. by eapply make_hashers_made.
      * cbn. eapply Forall2_impl; [exact HU|]. intros v v' Hv. by apply updated_kept in Hv as [? _].
      * unfold lv_calm. cbn. apply Forall_lookup. intros k' v' Hv'. destruct (Forall2_lookup_r _ _ _ _ _ HU Hv') as (v & Hv & HU').
        apply updated_kept in HU' as [_ HU']. unfold calm. rewrite HU'. exact (sh_calm _ _ _ _ _ _ (ss_nodes _ _ _ _ _ _ _ _ _ S _ _ Hv)).
    + rewrite list_lookup_insert_ne in Hlv' by done. rewrite Hlv0 in Hlv'. by injection Hlv' as <-.
  - by rewrite insert_length.
  - intros j' Hj'. by rewrite list_lookup_insert_ne.
  - exists lv. eexists. exists sp. split; [done|]. split; [by apply list_lookup_insert|]. split; [done|]. split.
    + constructor; try done; cbn [lv_hash lv_tables].
      * intros Hb. rewrite Hb in Hh. by destruct Hh.
      * intros Hb. by rewrite Hb in HT.
    + cbn [lv_hash lv_tables lv_nodes]. intros Hb. by rewrite Hb in HT.
Qed.

Definition all_updated (E : env) (lr : float64) (sps : list float64) (rehash rebuild : bool) (L L' : list LayerView) : Prop :=
  forall j lv lv', L !! j = Some lv -> L' !! j = Some lv' -> exists sp, sps !! j = Some sp /\
    layer_updated E lr sp rehash rebuild lv lv' /\
    (rehash && fltb sp fone = true -> insert_all E (lv_hash lv') (lsh_Clear (lv_tables lv)) (map v_w (lv_nodes lv')) = Ok (lv_tables lv')).
Lemma update_all_spec E batch cfg lr sps rehash rebuild nv nv' :
  all_shape E batch cfg (nv_layers nv) ->
  foldM (ref_update_layer E lr sps rehash rebuild) nv (seqZ 0 (Z.of_nat (length (nv_layers nv)))) = Ok nv' ->
  all_shape E batch cfg (nv_layers nv') /\ length (nv_layers nv') = length (nv_layers nv) /\
  all_updated E lr sps rehash rebuild (nv_layers nv) (nv_layers nv').
Proof.
  intros HS H.
  set (P := fun (pre : list Z) (nv1 : NetView) => all_shape E batch cfg (nv_layers nv1) /\ length (nv_layers nv1) = length (nv_layers nv) /\
    (forall j, (length pre <= j)%nat -> nv_layers nv1 !! j = nv_layers nv !! j) /\
    forall j lv lv', (j < length pre)%nat -> nv_layers nv !! j = Some lv -> nv_layers nv1 !! j = Some lv' -> exists sp, sps !! j = Some sp /\
      layer_updated E lr sp rehash rebuild lv lv' /\
      (rehash && fltb sp fone = true -> insert_all E (lv_hash lv') (lsh_Clear (lv_tables lv)) (map v_w (lv_nodes lv')) = Ok (lv_tables lv'))).
  assert (HP : P (seqZ 0 (Z.of_nat (length (nv_layers nv)))) nv').
  2:{ destruct HP as (H1 & H2 & _ & H4). split; [done|]. split; [done|]. intros j lv lv' Hlv. apply H4; [|done].
      rewrite seqZ_length, Nat2Z.id. by eapply lookup_lt_Some. }
  revert H. apply foldM_keep.
  - split; [done|]. split; [done|]. split; [done|]. cbn. lia.
  - intros pre x nv1 nv2 (H1 & H2 & H3 & H4) Hpre H. apply seqZ_at in Hpre as [Hlt ->].
    eapply update_layer_shape in H as (K1 & K2 & K3 & lv0 & lv0' & sp & Hlv0 & Hlv0' & K4); [|done].
    unfold P. rewrite app_length. cbn [length]. split; [done|]. split; [lia|]. split.
    + intros j Hj. rewrite K3 by lia. apply H3. lia.
    + intros j lv lv' Hj Hlv Hlv'. destruct (decide (j = length pre)) as [->|Hne].
      * rewrite H3 in Hlv0 by lia. rewrite Hlv in Hlv0. injection Hlv0 as <-. rewrite Hlv' in Hlv0'. injection Hlv0' as <-. eauto.
      * rewrite K3 in Hlv' by done. apply (H4 j); [lia|done..].
Qed.
