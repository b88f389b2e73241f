(** What every call history keeps, and what one training call does. *)
From Verif.Spec Require Import FifoSpec LshSpec.
From Verif.Proofs Require Import FifoProofs LshProofs.
From Verif.Proofs Require Export NetTables.
From Coq Require Import Lia ZifyBool ZifyNat.
Local Open Scope Z_scope.

(** * The content of a network is determined by the memory *)
Lemma rep_unique m c n ly ly' v v' : rep m c n ly v -> rep m c n ly' v' -> v = v'.
Proof.
  intros [A1 A2 A3 A4 A5 A6 A7 A8] [B1 B2 B3 B4 B5 B6 B7 B8]. rewrite A1 in B1. injection B1 as Hb Ht.
  rewrite <- Hb, A2 in B2. injection B2 as H1 H2 H3 Hw _ Hm Hv Hg H4 H5 H6 H7 H8.
  rewrite <- Ht, A3 in B3. injection B3 as HT. rewrite <- Hw, A5 in B5. rewrite <- Hm, A6 in B6. rewrite <- Hv, A7 in B7. rewrite <- Hg, A8 in B8.
  assert (HS : v_slots v = v_slots v').
  { rewrite <- HT in B4. clear -A4 B4. revert B4. generalize (v_slots v') as ys. generalize dependent (ly_trs ly). intros ls A4.
    induction A4 as [|l s ls ss Hl A4 IH]; intros ys B4; inversion B4 as [|? s' ? ss' Hl' B4']; subst; [done|].
    rewrite Hl in Hl'. injection Hl' as E1 E2 E3. f_equal; [destruct s, s'; cbn in *; congruence|by apply IH]. }
  destruct v, v'. cbn in *. congruence.
Qed.
Lemma reps_unique m c ns lys lys' vs vs' : reps m c ns lys vs -> reps m c ns lys' vs' -> vs = vs'.
Proof.
  intros [A1 A2 A3] [B1 B2 B3]. apply list_eq_same_length with (n := length ns); [done..|].
  intros i x y Hi Hx Hy. destruct (lookup_lt_is_Some_2 ns i Hi) as [n Hn].
  destruct (lookup_lt_is_Some_2 lys i ltac:(lia)) as [ly Hly]. destruct (lookup_lt_is_Some_2 lys' i ltac:(lia)) as [ly' Hly'].
  eapply rep_unique; [by eapply A3|by eapply B3].
Qed.
Lemma layer_rep_unique m c ll ll' lv lv' : ll_ptr ll = ll_ptr ll' -> layer_rep m c ll lv -> layer_rep m c ll' lv' -> lv = lv'.
Proof.
  intros HP [A1 A2 A3 A4 A5 A6] [B1 B2 B3 B4 B5 B6]. rewrite <- HP, A1 in B1. injection B1 as H1 H2 H3 H4 H5 H6 H7 H8 H9 H10 H11 H12 H13.
  rewrite <- H2, A2 in B2. injection B2 as HN. rewrite <- H3, A3 in B3. rewrite <- H8, A5 in B5.
  rewrite <- HN in B6. pose proof (reps_unique _ _ _ _ _ _ _ A6 B6) as HV.
  assert (HM : lv_norm lv = lv_norm lv').
  { rewrite <- H4 in B4. destruct (ll_norm ll); congruence. }
  destruct lv as [? ? ? ? ? ? ? ? h], lv' as [? ? ? ? ? ? ? ? h']. destruct h, h'. cbn in *. congruence.
Qed.
Lemma live_unique E m c n nv nv' : live E m c n nv -> live E m c n nv' -> nv = nv'.
Proof.
  intros (_ & HN & lls & [A1 A2 A3 A4 A5] & _) (_ & HN' & lls' & [B1 B2 B3 B4 B5] & _).
  rewrite A1 in B1. injection B1 as HM.
  assert (HL : nv_layers nv = nv_layers nv').
  { apply list_eq_same_length with (n := length (nv_layers nv)); [lia|done|].
    intros i x y Hi Hx Hy. destruct (lookup_lt_is_Some_2 lls i ltac:(lia)) as [ll Hll]. destruct (lookup_lt_is_Some_2 lls' i ltac:(lia)) as [ll' Hll'].
    eapply layer_rep_unique; [|by eapply A3|by eapply B3].
    assert (HI : (ll_ptr <$> lls) !! i = (ll_ptr <$> lls') !! i) by (exact (f_equal (fun xs : list nat => xs !! i) HM)). rewrite !list_lookup_fmap, Hll, Hll' in HI. by injection HI. }
  destruct nv, nv'. cbn in *. congruence.
Qed.

(** * New *)
Definition cfg_of (cfg : list (nat * nat * NodeType * Z * Z * Z)) (sizes : list Z) (types : list NodeType) (inputDim : Z) (k l rp : list Z) : Prop :=
  forall j c, cfg !! j = Some c -> exists size prev ty kj lj rj,
    c = (Z.to_nat size, Z.to_nat prev, ty, kj, lj, rj) /\
    sizes !! j = Some size /\ (inputDim :: sizes) !! j = Some prev /\ types !! j = Some ty /\
    k !! j = Some kj /\ l !! j = Some lj /\ rp !! j = Some rj.
Lemma cfg_shape E num sizes types batch inputDim k l rp cfg nv : cfg_of cfg sizes types inputDim k l rp ->
  all_shape E (Z.to_nat batch) cfg (nv_layers nv) -> num = Z.of_nat (length (nv_layers nv)) ->
  net_shape E num sizes types batch inputDim k l rp nv.
Proof.
  intros HC HS HN. split; [done|]. intros j lv Hlv. destruct (Forall2_lookup_r _ _ _ _ _ HS Hlv) as (c & Hc & S).
  destruct (HC _ _ Hc) as (size & prev & ty & kj & lj & rj & -> & H). exists size, prev, ty, kj, lj, rj. naive_solver.
Qed.

Lemma foldM_map {S A B} (f : S -> B -> res S) (h : A -> B) xs s : foldM (fun s x => f s (h x)) s xs = foldM f s (map h xs).
Proof. revert s. induction xs as [|x xs IH]; intros s; [done|]. cbn. by destruct (f s (h x)). Qed.

Lemma layer_new_shape E norm pos N P ty batch k l rp g seeds lv g' :
  ref_layer_new E norm pos N P ty batch k l rp g seeds = Ok (lv, g') ->
  layer_shape E batch N P ty k l rp lv /\ (0 <= rp <= 62 -> findable E lv) /\ lv_nodes lv = new_nodes (e_UseAdam E) norm pos N P ty batch.
Proof.
  unfold ref_layer_new. intros H. destruct (shuffle (seqZ 0 (Z.of_nat N)) g) as [rand g1] eqn:Es.
  binv H as [t0 g2] E1. binv H as [h g3] E2. binv H as t E3. apply Ok_inj in H. injection H as <- <-.
  assert (HI : insert_all E h t0 (map v_w (new_nodes (e_UseAdam E) norm pos N P ty batch)) = Ok t).
  { rewrite <- E3. unfold insert_all. symmetry.
    rewrite (foldM_map (fun t kw => ref_insert E h t kw.2 kw.1) (fun i => (Z.of_nat i, map (norm_draw norm) (seq (pos + i * P) P)))).
    f_equal. apply list_eq. intros j. apply option_eq. intros [q w]. rewrite indexed_lookup.
    change (map ?f (seq 0 N)) with (f <$> seq 0 N). change (map v_w ?x) with (v_w <$> x). unfold new_nodes. change (map ?f (seq 0 N)) with (f <$> seq 0 N).
    rewrite !list_lookup_fmap. destruct (seq 0 N !! j) as [x|] eqn:Ex; [|naive_solver].
    apply lookup_seq in Ex as [-> _]. cbn [fmap option_fmap option_map new_node v_w NodeSpec.v_w]. rewrite Nat.add_0_l.
    split; [intros [= <- <-]; done|]. by intros [-> [= <-]]. }
  split; [|split; [|done]].
  - constructor; try done; cbn [lv_nodes lv_rand lv_norm lv_tables lv_hash lv_type].
    + unfold new_nodes. by rewrite map_length, seq_length.
    + intros i v Hv. apply list_lookup_fmap_inv in Hv as (x & -> & Hx). apply lookup_seq in Hx as [-> Hx]. rewrite Nat.add_0_l in *.
      constructor; cbn.
      * done.
      * by rewrite map_length, seq_length.
      * destruct (e_UseAdam E); by rewrite ?replicate_length.
      * by rewrite replicate_length.
      * apply Forall_replicate. done.
    + by eapply shuffle_Permutation.
    + destruct (is_softmax ty); [by rewrite replicate_length|done].
    + apply insert_all_run in HI as (ops & HR & HO). rewrite map_length in HO. unfold new_nodes in HO. rewrite map_length, seq_length in HO.
      by exists g1, t0, g2, ops.
    + by eapply make_hashers_made.
  - intros Hrp. destruct (lsh_New_inv _ _ _ _ _ _ Hrp E1) as (HL & _). eapply entered_findable; [exact HL|done|exact HI].
Qed.

Lemma draws_before_S prev sizes j size p : sizes !! j = Some size -> (prev :: sizes) !! j = Some p ->
  draws_before prev sizes (S j) = (draws_before prev sizes j + Z.to_nat size * Z.to_nat p + Z.to_nat size)%nat.
Proof.
  revert prev sizes. induction j as [|j IH]; intros prev sizes Hs Hp; destruct sizes as [|s sizes]; try done.
  - cbn in Hs, Hp. injection Hs as ->. injection Hp as ->. cbn. lia.
  - change (draws_before prev (s :: sizes) (S (S j))) with (Z.to_nat s * Z.to_nat prev + Z.to_nat s + draws_before s sizes (S j))%nat.
    change (draws_before prev (s :: sizes) (S j)) with (Z.to_nat s * Z.to_nat prev + Z.to_nat s + draws_before s sizes j)%nat.
    cbn in Hs. change ((s :: sizes) !! j = Some p) in Hp. rewrite (IH _ _ Hs Hp). lia.
Qed.

Lemma net_new_shape E norm num sizes types batch inputDim k l rp sparsity pos g s nv :
  ref_net_new E norm num sizes types batch inputDim k l rp sparsity pos g s = Ok nv ->
  exists cfg, cfg_of cfg sizes types inputDim k l rp /\ all_shape E (Z.to_nat batch) cfg (nv_layers nv) /\
    num = Z.of_nat (length (nv_layers nv)) /\
    forall j lv size prev ty rj, nv_layers nv !! j = Some lv -> sizes !! j = Some size -> (inputDim :: sizes) !! j = Some prev ->
      types !! j = Some ty -> rp !! j = Some rj -> new_layer_spec E norm pos sizes batch inputDim j size prev ty rj lv.
Proof.
  unfold ref_net_new. intros H. binv H as u E0. apply make_slice_Ok in E0 as [Hnum _]. clear u. binv H as [[[[lvs p1] pos1] g1] s1] E1. apply Ok_inj in H as <-. cbn [nv_layers].
  set (P := fun (pre : list Z) (st : list LayerView * Z * nat * rng * nat) => let '(lvs, prev, pos', g, s) := st in
    (inputDim :: sizes) !! length pre = Some prev /\ pos' = (pos + draws_before inputDim sizes (length pre))%nat /\ length lvs = length pre /\
    exists cfg, cfg_of cfg sizes types inputDim k l rp /\ all_shape E (Z.to_nat batch) cfg lvs /\
    forall j lv size prev ty rj, lvs !! j = Some lv -> sizes !! j = Some size -> (inputDim :: sizes) !! j = Some prev ->
      types !! j = Some ty -> rp !! j = Some rj -> new_layer_spec E norm pos sizes batch inputDim j size prev ty rj lv).
  assert (HP : P (seqZ 0 num) (lvs, p1, pos1, g1, s1)).
  2:{ destruct HP as (_ & _ & HL & cfg & H1 & H2 & H3). exists cfg. rewrite seqZ_length in HL. split; [done|]. split; [done|]. split; [lia|done]. }
  revert E1. apply foldM_keep.
  - unfold P. cbn [length]. split; [done|]. split; [cbn; lia|]. split; [done|]. exists []. split; [by intros j c|]. split; [constructor|]. intros j lv. by rewrite lookup_nil.
  - intros pre x [[[[ls pr] ps] g2] s2] [[[[ls' pr'] ps'] g3] s3] (H1 & H2 & H3 & cfg & H4 & H5 & H6) Hpre H.
    rewrite <- (Z2Nat.id num) in Hpre by lia. apply seqZ_at in Hpre as [_ ->]. unfold ref_new_layer in H.
    binv H as size E1. binv H as ty E2. binv H as ki E3. binv H as li E4. binv H as rj E5. binv H as sp E6. binv H as [lv g4] E7. apply Ok_inj in H. injection H as <- <- <- <- <-.
    apply sget_Ok in E1 as [_ E1], E2 as [_ E2], E3 as [_ E3], E4 as [_ E4], E5 as [_ E5]. rewrite Nat2Z.id in *. clear E6.
    apply layer_new_shape in E7 as (L1 & L2 & L3).
    unfold P. rewrite app_length. cbn [length]. rewrite Nat.add_1_r. split; [done|]. split; [|split].
    + erewrite draws_before_S; [|exact E1|exact H1]. rewrite H2. lia.
    + rewrite app_length, H3. cbn. lia.
    + exists (cfg ++ [(Z.to_nat size, Z.to_nat pr, ty, ki, li, rj)]). pose proof (Forall2_length _ _ _ H5) as HL. split; [|split].
      * intros j c Hc. destruct (decide (j < length cfg)%nat) as [Hj|Hj].
        -- rewrite lookup_app_l in Hc by done. by apply H4.
        -- rewrite lookup_app_r in Hc by lia. apply list_lookup_singleton_Some in Hc as [Hj0 <-]. replace j with (length pre) by lia.
           by exists size, pr, ty, ki, li, rj.
      * apply Forall2_app; [done|]. by constructor.
      * intros j lv' sz pv ty' r Hlv Hsz Hpv Hty Hr. destruct (decide (j < length ls)%nat) as [Hj|Hj].
        -- rewrite lookup_app_l in Hlv by done. by eapply H6.
        -- rewrite lookup_app_r in Hlv by lia. apply list_lookup_singleton_Some in Hlv as [Hj0 <-]. replace j with (length pre) in * by lia.
           assert (sz = size) as -> by congruence. assert (pv = pr) as -> by congruence. assert (ty' = ty) as -> by congruence. assert (r = rj) as -> by congruence.
           split; [done|]. by rewrite L3, H2.
Qed.

(** * Calls *)
Lemma findable_same E lv lv' : lv_tables lv' = lv_tables lv -> lv_hash lv' = lv_hash lv -> lv_l lv' = lv_l lv ->
  Forall2 (fun v v' => v_w v' = v_w v) (lv_nodes lv) (lv_nodes lv') -> findable E lv -> findable E lv'.
Proof.
  intros H1 H2 H3 H4 (addrs & F1 & F2). exists addrs. rewrite H1, H3, <- (Forall2_length _ _ _ H4). split; [|done].
  pose proof (Forall2_length _ _ _ H4) as HL4. pose proof (Forall2_length _ _ _ F1) as HLF.
  apply Forall2_same_length_lookup_2; [lia|].
  intros i v' ix Hv' Hix. destruct (Forall2_lookup_r _ _ _ _ _ H4 Hv') as (v & Hv & Hw). rewrite Hw.
  destruct (Forall2_lookup_lr _ _ _ _ _ _ F1 Hv Hix) as (hs & A1 & A2). exists hs. by rewrite H1, H2.
Qed.
Lemma predict_findable E I nv nv' j lv lv' : net_same_but I nv nv' -> nv_layers nv !! j = Some lv -> nv_layers nv' !! j = Some lv' ->
  findable E lv -> findable E lv'.
Proof.
  intros [_ NS] Hlv Hlv'. destruct (Forall2_lookup_lr _ _ _ _ _ _ NS Hlv Hlv') as [L1 L2 L3 L4 L5 L6 L7 L8 _ L9].
  apply findable_same; [done..|]. eapply Forall2_impl; [exact L9|]. intros v v' [HL _ _ _]. unfold learned in HL. by injection HL as ->.
Qed.

Lemma reshuffle_spec nv xs nv' : foldM ref_reshuffle nv xs = Ok nv' ->
  Forall2 (fun lv lv' => exists r, lv' = lv_set_rand lv r /\ r ≡ₚ lv_rand lv) (nv_layers nv) (nv_layers nv') /\ nv_seeds nv' = nv_seeds nv.
Proof.
  set (P := fun nv' => Forall2 (fun lv lv' => exists r, lv' = lv_set_rand lv r /\ r ≡ₚ lv_rand lv) (nv_layers nv) (nv_layers nv') /\ nv_seeds nv' = nv_seeds nv).
  apply (foldM_preserve P).
  2:{ split; [|done]. apply Forall2_refl'. intros lv. exists (lv_rand lv). split; [by destruct lv|done]. }
  intros nv1 j nv2 [H1 H2] H. unfold ref_reshuffle in H. binv H as lv1 E1. apply sget_Ok in E1 as [_ E1]. cbn zeta in H.
  destruct (_ && _); [discriminate H|]. destruct (fisher_yates _ _ _) as [r g] eqn:Ef. apply Ok_inj in H as <-. split; [|done]. cbn [nv_layers].
  apply fisher_yates_Permutation in Ef. pose proof (Forall2_length _ _ _ H1) as HL.
  apply Forall2_same_length_lookup_2; [by rewrite insert_length|]. intros i lv lv' Hlv Hlv'.
  destruct (decide (i = Z.to_nat j)) as [->|Hne].
  - rewrite list_lookup_insert in Hlv' by (by eapply lookup_lt_Some). injection Hlv' as <-.
    destruct (Forall2_lookup_lr _ _ _ _ _ _ H1 Hlv E1) as (r1 & -> & Hr1). exists r. split; [by destruct lv|]. rewrite Ef. cbn. done.
  - rewrite list_lookup_insert_ne in Hlv' by done. by apply (Forall2_lookup_lr _ _ _ _ _ _ H1 Hlv Hlv').
Qed.

Lemma reshuffle_first nv xs nv' : Forall (fun j => 1 <= j) xs -> foldM ref_reshuffle nv xs = Ok nv' -> nv_layers nv' !! 0%nat = nv_layers nv !! 0%nat.
Proof.
  intros HF. revert nv. induction HF as [|j xs Hj _ IH]; intros nv H; cbn [foldM] in H; [by apply Ok_inj in H as <-|].
  destruct (ref_reshuffle nv j) as [nv1|] eqn:E1; [|discriminate H]. rewrite (IH _ H). unfold ref_reshuffle in E1. binv E1 as lv El. cbn zeta in E1. destruct (_ && _); [discriminate E1|].
  destruct (fisher_yates _ _ _) as [r g]. apply Ok_inj in E1 as <-. cbn [nv_layers]. by rewrite list_lookup_insert_ne by lia.
Qed.

Lemma updated_settled E batch size prev ty k l rp lr sp rehash rebuild lv lv' : layer_shape E batch size prev ty k l rp lv ->
  layer_updated E lr sp rehash rebuild lv lv' -> Forall (settled (e_UseAdam E)) (lv_nodes lv').
Proof.
  intros S HU. apply Forall_lookup. intros i v' Hv'. destruct (Forall2_lookup_r _ _ _ _ _ (lu_nodes _ _ _ _ _ _ _ HU) Hv') as (v & Hv & U).
  destruct (ss_nodes _ _ _ _ _ _ _ _ _ S _ _ Hv) as [_ S1 (S2 & S3 & S4) _ _]. unfold updated, settled in *. destruct (e_UseAdam E).
  - destruct U as [(_ & _ & _ & UL) UA (_ & _ & _ & UB & _) _]. split; [|done].
    apply Forall_lookup. intros d x Hx. pose proof (lookup_lt_Some _ _ _ Hx) as Hd.
    destruct (lookup_lt_is_Some_2 (v_t v) d ltac:(lia)) as [t Ht]. destruct (lookup_lt_is_Some_2 (v_mom v) d ltac:(lia)) as [mo Hmo].
    destruct (lookup_lt_is_Some_2 (v_vel v) d ltac:(lia)) as [ve Hve]. destruct (lookup_lt_is_Some_2 (v_w v) d ltac:(lia)) as [w Hw].
    destruct (UA _ _ _ _ _ Ht Hmo Hve Hw) as [H _]. rewrite Hx in H. by injection H as ->.
  - by rewrite U.
Qed.
Lemma process_spec E num batch cfg sps lr0 nv exs iter rehash rebuild ins nv' :
  num = Z.of_nat (length (nv_layers nv)) -> all_shape E batch cfg (nv_layers nv) ->
  ref_process E num sps lr0 nv exs iter rehash rebuild = Ok (ins, nv') ->
  training_call E (Z.of_nat batch) sps lr0 exs iter rehash rebuild (nv_layers nv) (nv_layers nv') /\
  all_shape E batch cfg (nv_layers nv') /\ length (nv_layers nv') = length (nv_layers nv) /\
  forall j lv' sp size prev ty k l rp, nv_layers nv' !! j = Some lv' -> sps !! j = Some sp ->
    cfg !! j = Some (size, prev, ty, k, l, rp) ->
    (rehash = true -> fltb sp fone = true -> 0 <= rp <= 62 -> findable E lv') /\ Forall (settled (e_UseAdam E)) (lv_nodes lv').
Proof.
  intros Hn HS H. unfold ref_process in H. binv H as u E0. clear E0 u. binv H as nv1 E1. cbn zeta in H. binv H as [is1 nv2] E2. binv H as nv3 E3.
  apply Ok_inj in H. injection H as <- <-.
  assert (HR : reshuffled iter (nv_layers nv) (nv_layers nv1)).
  { destruct (Z.rem iter 6946 =? 6945) eqn:Er.
    - split; [by apply reshuffle_spec in E1 as [E1 _]|]. split; [|lia]. eapply reshuffle_first; [|exact E1].
      apply Forall_forall. intros j [Hj _]%elem_of_seqZ. done.
    - apply Ok_inj in E1 as <-. split; [|done]. apply Forall2_refl'. intros lv. exists (lv_rand lv). split; [by destruct lv|done]. }
  assert (HS1 : all_shape E batch cfg (nv_layers nv1)).
  { destruct HR as [HR _]. eapply all_shape_map; [exact HS|symmetry; by eapply Forall2_length|].
    intros j [[[[[size prev] ty] k] l] rp] lv lv' _ Hlv Hlv' S. destruct (Forall2_lookup_lr _ _ _ _ _ _ HR Hlv Hlv') as (r & -> & Hr).
    eapply shape_move; [exact S|done..| | | |]; [apply S|apply S|by apply Forall2_refl'|by eapply shape_calm in S]. }
  pose proof (Forall2_length _ _ _ (proj1 HR)) as HL1.
  apply (train_all_spec _ _ batch cfg) in E2 as (T1 & T2 & T3 & T4); [|lia|done].
  eapply update_all_spec in E3 as (U1 & U2 & U3); [|exact T2].
  split; [|split; [done|split; [lia|]]].
  - exists (nv_layers nv1), (nv_layers nv2). split; [done|]. split; [done|]. split; [done|].
    intros j lv lv' Hlv Hlv'. destruct (U3 _ _ _ Hlv Hlv') as (sp & Hsp & HU & _). eauto.
  - intros j lv' sp size prev ty k l rp Hlv' Hsp Hc.
    destruct (lookup_lt_is_Some_2 (nv_layers nv2) j) as [lv Hlv]; [rewrite <- U2; by eapply lookup_lt_Some|].
    destruct (U3 _ _ _ Hlv Hlv') as (sp' & Hsp' & HU & HI). rewrite Hsp in Hsp'. injection Hsp' as <-.
    split.
    2:{ pose proof (Forall2_lookup_lr _ _ _ _ _ _ T2 Hc Hlv) as S. cbn in S. by eapply updated_settled. }
    intros -> Hlt Hrp.
    rewrite Hlt in HI. specialize (HI eq_refl).
    pose proof (Forall2_lookup_lr _ _ _ _ _ _ T2 Hc Hlv) as S. cbn in S.
    eapply rehashed_findable; [exact Hrp|apply S| |exact HI]. rewrite (lu_l _ _ _ _ _ _ _ HU). apply S.
Qed.

Definition all_settled (E : env) (nv : NetView) : Prop := Forall (fun lv => Forall (settled (e_UseAdam E)) (lv_nodes lv)) (nv_layers nv).
Lemma same_settled E I nv nv' : net_same_but I nv nv' -> all_settled E nv -> all_settled E nv'.
Proof.
  intros [_ NS] HS. apply Forall_lookup. intros j lv' Hlv'. destruct (Forall2_lookup_r _ _ _ _ _ NS Hlv') as (lv & Hlv & [L1 L2 L3 L4 L5 L6 L7 L8 _ L9]).
  apply Forall_lookup. intros i v' Hv'. destruct (Forall2_lookup_r _ _ _ _ _ L9 Hv') as (v & Hv & [HL _ _ _]).
  unfold all_settled in HS. rewrite Forall_lookup in HS. specialize (HS _ _ Hlv). rewrite Forall_lookup in HS. specialize (HS _ _ Hv).
  unfold learned in HL. injection HL as _ _ _ H1 H2 H3 _ _ H4. unfold settled in *. by rewrite H1, H2, H3, H4.
Qed.
Lemma process_settled E num batch cfg sps lr0 nv exs iter rehash rebuild ins nv' :
  num = Z.of_nat (length (nv_layers nv)) -> all_shape E batch cfg (nv_layers nv) ->
  ref_process E num sps lr0 nv exs iter rehash rebuild = Ok (ins, nv') -> all_settled E nv'.
Proof.
  intros Hn HS H. apply (process_spec _ _ batch cfg) in H as ((l1 & l2 & _ & _ & HL & HU) & H2 & _ & H4); [|done|done].
  apply Forall_lookup. intros j lv' Hlv'. destruct (lookup_lt_is_Some_2 l2 j) as [lv Hlv]; [rewrite <- HL; by eapply lookup_lt_Some|].
  destruct (HU _ _ _ Hlv Hlv') as (sp & Hsp & _). destruct (Forall2_lookup_r _ _ _ _ _ H2 Hlv') as ([[[[[? ?] ?] ?] ?] ?] & Hc & _).
  by destruct (H4 _ _ _ _ _ _ _ _ _ Hlv' Hsp Hc) as [_ ?].
Qed.
Lemma new_settled E norm pos sizes batch inputDim j size prev ty rj lv : new_layer_spec E norm pos sizes batch inputDim j size prev ty rj lv ->
  Forall (settled (e_UseAdam E)) (lv_nodes lv).
Proof.
  intros [_ ->]. apply Forall_lookup. intros i v Hv. apply list_lookup_fmap_inv in Hv as (x & -> & _). unfold settled. cbn. destruct (e_UseAdam E); [|done].
  split; [|done]. by apply Forall_replicate.
Qed.

Lemma call_shape E n batch cfg nv o nv' : nw_num n = Z.of_nat (length (nv_layers nv)) -> all_shape E batch cfg (nv_layers nv) ->
  all_settled E nv ->
  ref_call E n nv o = Ok nv' -> all_shape E batch cfg (nv_layers nv') /\ length (nv_layers nv') = length (nv_layers nv) /\ all_settled E nv'.
Proof.
  intros Hn HS HZ H. destruct o as [exs iter rehash rebuild|exs]; cbn [ref_call] in H; binv H as [x nv1] E1; apply Ok_inj in H as <-.
  - pose proof (process_settled _ _ batch cfg _ _ _ _ _ _ _ _ _ Hn HS E1). eapply process_spec in E1 as (_ & ? & ? & _); done.
  - assert (E2 := E1). apply predict_calm in E2; [|by eapply all_shape_calm]. apply predict_spec in E1 as (NS & _); [|done].
    split; [by eapply same_shape|]. split; [|by eapply same_settled]. destruct NS as [_ NS]. symmetry. by eapply Forall2_length.
Qed.
Lemma calls_shape E n batch cfg nv os nv' : nw_num n = Z.of_nat (length (nv_layers nv)) -> all_shape E batch cfg (nv_layers nv) -> all_settled E nv ->
  foldM (ref_call E n) nv os = Ok nv' -> all_shape E batch cfg (nv_layers nv') /\ length (nv_layers nv') = length (nv_layers nv) /\ all_settled E nv'.
Proof.
  intros Hn HS HZ. set (P := fun nv' => all_shape E batch cfg (nv_layers nv') /\ length (nv_layers nv') = length (nv_layers nv) /\ all_settled E nv').
  apply (foldM_preserve P); [|done]. intros nv1 o nv2 (H1 & H2 & H2') H. apply (call_shape _ _ batch cfg) in H as (H3 & H4 & H5); [|lia|done..]. split; [done|]. split; [lia|done].
Qed.

(** A network made by New and used for some time, with the configuration of its layers. *)
Lemma new_calls_shape E c num sizes types batch lr inputDim k l rp sparsity m n m' os n' m'' :
  e_LoadWeight E = false -> dims_ok E num sizes batch inputDim ->
  network_New E c num sizes types batch lr inputDim k l rp sparsity m = Ok (n, m') ->
  call_ops E c n os m' = Ok (n', m'') ->
  n' = n /\ nw_sparsity n = sparsity /\ nw_lr n = lr /\ nw_num n = num /\
  exists nv cfg, live E m'' c n nv /\ cfg_of cfg sizes types inputDim k l rp /\ all_shape E (Z.to_nat batch) cfg (nv_layers nv) /\
    num = Z.of_nat (length (nv_layers nv)) /\ all_settled E nv.
Proof.
  intros HL HD HN HO.
  destruct (refines_Ok _ _ _ n m' (network_New_ref _ _ _ _ _ _ _ _ _ _ _ _ _ HL HD) HN) as (nv & RN & (arr & ->) & L & _).
  apply net_new_shape in RN as (cfg & HC & HS & Hnum & HNW).
  assert (HZ : all_settled E nv).
  { apply Forall_lookup. intros j lv Hlv. destruct (Forall2_lookup_r _ _ _ _ _ HS Hlv) as (cc & Hc & _).
    destruct (HC _ _ Hc) as (size & prev & ty & kj & lj & rj & _ & A1 & A2 & A3 & _ & _ & A4). eapply new_settled. by eapply HNW. }
  pose proof (live_calls E c _ os m' nv L) as R2. destruct (refines_Ok _ _ _ _ _ R2 HO) as (nv' & RC & Hn & L').
  apply (calls_shape _ _ (Z.to_nat batch) cfg) in RC as (HS' & HL' & HZ'); [|done..].
  split; [done|]. split; [done|]. split; [done|]. split; [done|]. exists nv', cfg. split; [done|]. split; [done|]. split; [done|]. split; [lia|done].
Qed.

Lemma shape_calls E c num sizes types batch lr inputDim k l rp sparsity m n m' os n' m'' :
  e_LoadWeight E = false -> dims_ok E num sizes batch inputDim ->
  network_New E c num sizes types batch lr inputDim k l rp sparsity m = Ok (n, m') ->
  call_ops E c n os m' = Ok (n', m'') ->
  n' = n /\ exists nv, live E m'' c n nv /\ net_shape E num sizes types batch inputDim k l rp nv /\
    Forall (fun lv => Forall (settled (e_UseAdam E)) (lv_nodes lv)) (nv_layers nv).
Proof.
  intros HL HD HN HO. destruct (new_calls_shape _ _ _ _ _ _ _ _ _ _ _ _ _ _ _ _ _ _ HL HD HN HO) as (-> & _ & _ & _ & nv & cfg & L & HC & HS & Hnum & HZ).
  split; [done|]. exists nv. split; [done|]. split; [by eapply cfg_shape|done].
Qed.
Lemma training_effect E c num sizes types batch lr inputDim k l rp sparsity m n m' os n' m'' exs iter rehash rebuild ins n'' m3 :
  e_LoadWeight E = false -> dims_ok E num sizes batch inputDim ->
  network_New E c num sizes types batch lr inputDim k l rp sparsity m = Ok (n, m') ->
  call_ops E c n os m' = Ok (n', m'') ->
  network_ProcessInput E c n exs iter rehash rebuild m'' = Ok ((ins, n''), m3) ->
  n'' = n /\ exists nv nv', live E m'' c n nv /\ live E m3 c n nv' /\
    training_call E batch sparsity lr exs iter rehash rebuild (nv_layers nv) (nv_layers nv') /\
    (rehash = true -> forall j lv' sp rj, nv_layers nv' !! j = Some lv' -> sparsity !! j = Some sp -> rp !! j = Some rj ->
       fltb sp fone = true -> 0 <= rj <= 62 -> findable E lv') /\
    Forall (fun lv => Forall (settled (e_UseAdam E)) (lv_nodes lv)) (nv_layers nv').
Proof.
  intros HL HD HN HO HP. destruct (new_calls_shape _ _ _ _ _ _ _ _ _ _ _ _ _ _ _ _ _ _ HL HD HN HO) as (-> & Hsp & Hlr & Hnum' & nv & cfg & L & HC & HS & Hnum & HZ).
  destruct (refines_Ok _ _ _ _ _ (live_process E m'' c n nv exs iter rehash rebuild L) HP) as ([ins' nv'] & RP & Ha & L').
  injection Ha as -> ->. split; [done|]. exists nv, nv'. split; [done|]. split; [done|]. rewrite Hsp, Hlr, Hnum' in RP.
  pose proof (process_settled _ _ _ cfg _ _ _ _ _ _ _ _ _ Hnum HS RP) as HZ'.
  eapply process_spec in RP as (T1 & T2 & T3 & T4); [|exact Hnum|exact HS].
  rewrite Z2Nat.id in T1 by apply HD. split; [done|]. split; [|done].
  intros -> j lv' sp rj Hlv' Hs Hr Hlt Hrp. destruct (Forall2_lookup_r _ _ _ _ _ T2 Hlv') as (cc & Hc & _).
  destruct (HC _ _ Hc) as (size & prev & ty & kj & lj & rj' & -> & _ & _ & _ & _ & _ & Hr'). rewrite Hr in Hr'. injection Hr' as <-.
  destruct (T4 _ _ _ _ _ _ _ _ _ Hlv' Hs Hc) as [T _]. by apply T.
Qed.
(** Freshly made networks. *)
Lemma new_effect E c num sizes types batch lr inputDim k l rp sparsity m n m' :
  e_LoadWeight E = false -> dims_ok E num sizes batch inputDim ->
  network_New E c num sizes types batch lr inputDim k l rp sparsity m = Ok (n, m') ->
  exists nv, live E m' c n nv /\ net_shape E num sizes types batch inputDim k l rp nv /\
    forall j lv size prev ty rj, nv_layers nv !! j = Some lv -> sizes !! j = Some size -> (inputDim :: sizes) !! j = Some prev ->
      types !! j = Some ty -> rp !! j = Some rj -> new_layer_spec E (m_norm m) (m_npos m) sizes batch inputDim j size prev ty rj lv.
Proof.
  intros HL HD HN.
  destruct (refines_Ok _ _ _ n m' (network_New_ref _ _ _ _ _ _ _ _ _ _ _ _ _ HL HD) HN) as (nv & RN & _ & L & _).
  apply net_new_shape in RN as (cfg & HC & HS & Hnum & H). exists nv. split; [done|]. split; [by eapply cfg_shape|]. done.
Qed.
Lemma training_done E c num sizes types batch lr inputDim k l rp sparsity m n m' os n' m'' exs iter rehash rebuild ins n'' m3 :
  e_LoadWeight E = false -> dims_ok E num sizes batch inputDim ->
  network_New E c num sizes types batch lr inputDim k l rp sparsity m = Ok (n, m') ->
  call_ops E c n os m' = Ok (n', m'') ->
  network_ProcessInput E c n exs iter rehash rebuild m'' = Ok ((ins, n''), m3) ->
  n'' = n /\ exists nv nv', live E m'' c n nv /\ live E m3 c n nv' /\
    training_call E batch sparsity lr exs iter rehash rebuild (nv_layers nv) (nv_layers nv') /\
    Forall (fun lv => Forall (settled (e_UseAdam E)) (lv_nodes lv)) (nv_layers nv').
Proof.
  intros HL HD HN HO HP. destruct (training_effect _ _ _ _ _ _ _ _ _ _ _ _ _ _ _ _ _ _ _ _ _ _ _ _ _ HL HD HN HO HP) as (Hn & nv & nv' & H1 & H2 & H3 & _ & H5). eauto 10.
Qed.
Lemma rehash_findable E c num sizes types batch lr inputDim k l rp sparsity m n m' os n' m'' exs iter rebuild ins n'' m3 :
  e_LoadWeight E = false -> dims_ok E num sizes batch inputDim ->
  network_New E c num sizes types batch lr inputDim k l rp sparsity m = Ok (n, m') ->
  call_ops E c n os m' = Ok (n', m'') ->
  network_ProcessInput E c n exs iter true rebuild m'' = Ok ((ins, n''), m3) ->
  exists nv, live E m3 c n nv /\
    forall j lv sp rj, nv_layers nv !! j = Some lv -> sparsity !! j = Some sp -> rp !! j = Some rj ->
      fltb sp fone = true -> 0 <= rj <= 62 -> findable E lv.
Proof.
  intros HL HD HN HO HP. destruct (training_effect _ _ _ _ _ _ _ _ _ _ _ _ _ _ _ _ _ _ _ _ _ _ _ _ _ HL HD HN HO HP) as (Hn & nv & nv' & H1 & H2 & H3 & H4 & _).
  exists nv'. split; [done|]. by apply H4.
Qed.
Lemma predict_keeps_findable E m c n nv exs cnt n' m' nv' j lv lv' :
  live E m c n nv -> network_PredictClass E c n exs m = Ok ((cnt, n'), m') -> live E m' c n nv' ->
  nv_layers nv !! j = Some lv -> nv_layers nv' !! j = Some lv' -> findable E lv -> findable E lv'.
Proof.
  intros L H L' Hlv Hlv'. destruct (predict_unchanged _ _ _ _ _ _ _ _ _ L H) as (-> & nv1 & L1 & NS).
  rewrite (live_unique _ _ _ _ _ _ L1 L') in NS. by eapply predict_findable.
Qed.
Lemma new_predict_findable E c num sizes types batch lr inputDim k l rp sparsity m n m' os n' m'' :
  e_LoadWeight E = false -> dims_ok E num sizes batch inputDim ->
  network_New E c num sizes types batch lr inputDim k l rp sparsity m = Ok (n, m') ->
  call_ops E c n (map OpPredict os) m' = Ok (n', m'') ->
  exists nv, live E m'' c n nv /\
    forall j lv rj, nv_layers nv !! j = Some lv -> rp !! j = Some rj -> 0 <= rj <= 62 -> findable E lv.
Proof.
  intros HL HD HN HO.
  destruct (refines_Ok _ _ _ n m' (network_New_ref _ _ _ _ _ _ _ _ _ _ _ _ _ HL HD) HN) as (nv & RN & (arr & ->) & L & _).
  apply net_new_shape in RN as (cfg & HC & HS & Hnum & HNW).
  pose proof (live_calls E c _ (map OpPredict os) m' nv L) as R2. destruct (refines_Ok _ _ _ _ _ R2 HO) as (nv' & RC & Hn & L').
  exists nv'. split; [done|].
  set (P := fun nv' => length (nv_layers nv') = length (nv_layers nv) /\ forall j lv rj, nv_layers nv' !! j = Some lv -> rp !! j = Some rj -> 0 <= rj <= 62 -> findable E lv).
  assert (HP : P nv'); [|by destruct HP]. revert RC. rewrite <- (foldM_map (ref_call E (mkNet c arr lr num sparsity)) OpPredict).
  apply (foldM_preserve P).
  - intros nv1 exs nv2 [H1 H2] H. cbn [ref_call] in H. binv H as [x nv3] E1. apply Ok_inj in H as <-.
    apply predict_spec in E1 as (NS & _); [|cbn; lia]. split; [destruct NS as [_ NS]; by rewrite <- (Forall2_length _ _ _ NS)|].
    intros j lv' rj Hlv' Hr Hrj. assert (NS' := NS). destruct NS as [_ NS]. destruct (Forall2_lookup_r _ _ _ _ _ NS Hlv') as (lv & Hlv & _).
    eapply predict_findable; [exact NS'|exact Hlv|exact Hlv'|]. by eapply H2.
  - split; [done|]. intros j lv rj Hlv Hr Hrj. destruct (Forall2_lookup_r _ _ _ _ _ HS Hlv) as (cc & Hc & _).
    destruct (HC _ _ Hc) as (size & prev & ty & kj & lj & rj' & _ & A1 & A2 & A3 & _ & _ & A4).
    destruct (HNW _ _ _ _ _ _ Hlv A1 A2 A3 Hr) as [HF _]. by apply HF.
Qed.
