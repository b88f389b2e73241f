(** Nodes that are not active do not influence a prediction. *)
From Verif.Spec Require Import LocalSpec.
From Verif.Proofs Require Import NetCalls NetInfer NetFrame NodeOps.
From Coq Require Import Lia ZifyBool ZifyNat.
Local Open Scope Z_scope.

(** Slot [q] of node [k] is marked as active. *)
Definition lit (vs : list NodeView) (k q : nat) : Prop := exists v s, vs !! k = Some v /\ v_slots v !! q = Some s /\ on s = true.
Definition keeps (vs vs' : list NodeView) : Prop := forall k q, lit vs k q -> lit vs' k q.
Lemma keeps_refl vs : keeps vs vs. Proof. by intros k q. Qed.
Lemma keeps_trans a b c : keeps a b -> keeps b c -> keeps a c. Proof. intros H1 H2 k q H. by apply H2, H1. Qed.
Lemma on_fone a d : on (mkSlot fone a d) = true. Proof. reflexivity. Qed.
Lemma keeps_set vs (k : nat) v i s s' : vs !! k = Some v -> v_slots v !! Z.to_nat i = Some s -> (on s = true -> on s' = true) ->
  keeps vs (<[k := v_set_slot v i s']> vs).
Proof.
  intros Hv Hs Ho k' q (v' & t & H1 & H2 & H3). destruct (decide (k' = k)) as [->|Hk].
  - rewrite Hv in H1. injection H1 as <-. destruct (decide (q = Z.to_nat i)) as [->|Hq].
    + rewrite Hs in H2. injection H2 as <-. exists (v_set_slot v i s'), s'. split_and!; [|cbn|by apply Ho].
      * apply list_lookup_insert. by eapply lookup_lt_Some.
      * apply list_lookup_insert. by eapply lookup_lt_Some.
    + exists (v_set_slot v i s'), t. split_and!; [|cbn|done].
      * apply list_lookup_insert. by eapply lookup_lt_Some.
      * by rewrite list_lookup_insert_ne.
  - exists v', t. by rewrite list_lookup_insert_ne.
Qed.
Lemma lit_set vs (k : nat) v i s s' : vs !! k = Some v -> v_slots v !! Z.to_nat i = Some s -> on s' = true ->
  lit (<[k := v_set_slot v i s']> vs) k (Z.to_nat i).
Proof.
  intros Hv Hs Ho. exists (v_set_slot v i s'), s'. split_and!; [|cbn|done]; apply list_lookup_insert; by eapply lookup_lt_Some.
Qed.
Lemma activate_inv v cur i a v' : ref_activate v cur i = Ok (a, v') -> exists s s', v_slots v !! Z.to_nat i = Some s /\ v' = v_set_slot v i s' /\ on s' = true.
Proof.
  unfold ref_activate. destruct (_ <? _); [done|]. intros H. binv H as s E1. apply sget_Ok in E1 as [_ E1]. binv H as t E2.
  destruct (v_type v); [destruct (fltb _ _)| |done]; injection H as <- <-; eexists _, _; (split; [exact E1|split; [reflexivity|apply on_fone]]).
Qed.
Lemma set_act_inv v i r v' : ref_set_act v i r = Ok v' -> exists s s', v_slots v !! Z.to_nat i = Some s /\ v' = v_set_slot v i s' /\ (on s = true -> on s' = true).
Proof. unfold ref_set_act. intros H. binv H as s E1. apply sget_Ok in E1 as [_ E1]. injection H as <-. eexists _, _. split; [exact E1|]. split; [reflexivity|]. done. Qed.

(** * One layer *)
Section Layer.
  Context (D A : nat -> Prop).
  Lemma sbw_refl v : same_but_weights A v v. Proof using. by split_and!. Qed.
  Lemma sbw_slot v v2 i s : same_but_weights A v v2 -> same_but_weights A (v_set_slot v i s) (v_set_slot v2 i s).
  Proof using. intros (H1 & H2 & H3 & H4 & H5 & H6). split_and!; cbn; try done. by rewrite H4. Qed.
  (** The values come from inputs whose weights agree. *)
  Definition seen (cur : list Pair) : Prop := forall p, p ∈ cur -> 0 <= iv_index p -> ~ A (Z.to_nat (iv_index p)).
  Lemma sum_sim w w2 cur : (forall q, ~ A q -> w2 !! q = w !! q) -> seen cur -> forall s r,
    foldM (fun s p => x ← sget w (iv_index p); Ok (fadd s (fmul x (iv_value p)))) s cur = Ok r ->
    foldM (fun s p => x ← sget w2 (iv_index p); Ok (fadd s (fmul x (iv_value p)))) s cur = Ok r.
  Proof using.
    intros HW. induction cur as [|p cur IH]; intros HC s r; cbn [foldM]; [done|]. destruct (sget w (iv_index p)) as [x|] eqn:E1; [|done]. cbn [mbind res_bind].
    apply sget_Ok in E1 as [H0 E1]. assert (E2 : sget w2 (iv_index p) = Ok x). { apply sget_Ok. split; [done|]. rewrite HW; [done|]. apply HC; [left|done]. }
    rewrite E2. cbn [mbind res_bind]. apply IH. intros p' Hp'. apply HC. by right.
  Qed.
  Lemma activate_sim v v2 cur i a v' : seen cur -> same_but_weights A v v2 -> ref_activate v cur i = Ok (a, v') ->
    exists v2', ref_activate v2 cur i = Ok (a, v2') /\ same_but_weights A v' v2'.
  Proof using.
    intros HC HS. pose proof HS as (H1 & H2 & H3 & H4 & H5 & H6). unfold ref_activate. rewrite H1, H2, H3, H4. destruct (_ <? _); [done|]. intros H. binv H as s E1. binv H as t E2.
    unfold weighted_sum in *. rewrite (sum_sim _ _ _ H6 HC _ _ E2). cbn [mbind res_bind].
    destruct (v_type v); [destruct (fltb _ _)| |done]; injection H as <- <-; eexists; (split; [reflexivity|by apply sbw_slot]).
  Qed.
  Lemma set_act_sim v v2 i r v' : same_but_weights A v v2 -> ref_set_act v i r = Ok v' ->
    exists v2', ref_set_act v2 i r = Ok v2' /\ same_but_weights A v' v2'.
  Proof using.
    intros HS. pose proof HS as (H1 & H2 & H3 & H4 & H5 & H6). unfold ref_set_act. rewrite H4. intros H. binv H as s E1. injection H as <-. eexists. split; [reflexivity|by apply sbw_slot].
  Qed.

  Definition sim (vs vs2 : list NodeView) : Prop := length vs2 = length vs /\
    forall k v v2, ~ D k -> vs !! k = Some v -> vs2 !! k = Some v2 -> same_but_weights A v v2.
  Lemma sim_get vs vs2 k v : sim vs vs2 -> sget vs k = Ok v -> ~ D (Z.to_nat k) -> exists v2, sget vs2 k = Ok v2 /\ same_but_weights A v v2.
  Proof using.
    intros [HL HS] [Hk Hv]%sget_Ok HD. destruct (lookup_lt_is_Some_2 vs2 (Z.to_nat k)) as [v2 Hv2]; [rewrite HL; by eapply lookup_lt_Some|].
    exists v2. split; [by apply sget_Ok|]. by eapply HS.
  Qed.
  Lemma sim_set vs vs2 k v v2 : sim vs vs2 -> same_but_weights A v v2 -> sim (<[k := v]> vs) (<[k := v2]> vs2).
  Proof using.
    intros [HL HS] HV. split; [by rewrite !insert_length|]. intros k' a b Hk' Ha Hb. destruct (decide (k = k')) as [<-|Hne].
    - pose proof (lookup_lt_Some _ _ _ Ha) as Hlt. rewrite insert_length in Hlt. rewrite list_lookup_insert in Ha by lia. rewrite list_lookup_insert in Hb by lia.
      injection Ha as <-. injection Hb as <-. done.
    - rewrite list_lookup_insert_ne in Ha by done. rewrite list_lookup_insert_ne in Hb by done. by eapply HS.
  Qed.
  Lemma act_step sm cur i vs nx mx p vs' nx' mx' : ref_act_step sm cur i (vs, (nx, mx)) p = Ok (vs', (nx', mx')) ->
    keeps vs vs' /\ lit vs' (Z.to_nat (iv_index p)) (Z.to_nat i) /\ map iv_index nx' = map iv_index nx ++ [iv_index p] /\
    forall vs2, seen cur -> sim vs vs2 -> ~ D (Z.to_nat (iv_index p)) ->
      exists vs2', ref_act_step sm cur i (vs2, (nx, mx)) p = Ok (vs2', (nx', mx')) /\ sim vs' vs2'.
  Proof using.
    unfold ref_act_step. intros H. binv H as v E1. binv H as [a v'] E2. injection H as <- <- <-.
    pose proof E1 as [_ Hv]%sget_Ok. destruct (activate_inv _ _ _ _ _ E2) as (s & s' & Hs & Hv' & Ho). split_and!.
    - subst v'. by eapply keeps_set.
    - subst v'. by eapply lit_set.
    - by rewrite map_app.
    - intros vs2 HC HS HD. destruct (sim_get _ _ _ _ HS E1 HD) as (v2 & -> & HV). cbn [mbind res_bind]. destruct (activate_sim _ _ _ _ _ _ HC HV E2) as (v2' & -> & HV').
      cbn [mbind res_bind]. eexists. split; [reflexivity|]. by apply sim_set.
  Qed.
  Lemma act_loop sm cur i ps : forall vs nx mx vs' nx' mx', foldM (ref_act_step sm cur i) (vs, (nx, mx)) ps = Ok (vs', (nx', mx')) ->
    keeps vs vs' /\ (forall p, p ∈ ps -> lit vs' (Z.to_nat (iv_index p)) (Z.to_nat i)) /\ map iv_index nx' = map iv_index nx ++ map iv_index ps /\
    forall vs2, seen cur -> sim vs vs2 -> (forall k, D k -> ~ lit vs' k (Z.to_nat i)) ->
      exists vs2', foldM (ref_act_step sm cur i) (vs2, (nx, mx)) ps = Ok (vs2', (nx', mx')) /\ sim vs' vs2'.
  Proof using.
    induction ps as [|p ps IH]; intros vs nx mx vs' nx' mx'; cbn [foldM].
    - intros [= <- <- <-]. split_and!; [apply keeps_refl|by intros p ?%elem_of_nil|by rewrite app_nil_r|]. intros vs2 _ HS _. by exists vs2.
    - destruct (ref_act_step sm cur i (vs, (nx, mx)) p) as [[vs1 [nx1 mx1]]|] eqn:E1; [|done]. intros H.
      apply act_step in E1 as (K1 & L1 & M1 & S1). apply IH in H as (K2 & L2 & M2 & S2). split_and!.
      + by eapply keeps_trans.
      + intros q. rewrite elem_of_cons. intros [->|Hq]; [by apply K2|by apply L2].
      + rewrite M2, M1. cbn. by rewrite <- (assoc_L (++)).
      + intros vs2 HC HS HF. destruct (S1 vs2 HC HS) as (vs2' & -> & HS'); [intros HD; apply (HF _ HD); by apply K2|]. by apply S2.
  Qed.
  Lemma soft_step E i mx vs nm nx p vs' nm' nx' : ref_soft_step E i mx (vs, nm, nx) p = Ok (vs', nm', nx') ->
    keeps vs vs' /\ forall vs2, sim vs vs2 -> ~ D (Z.to_nat (iv_index p)) ->
      exists vs2', ref_soft_step E i mx (vs2, nm, nx) p = Ok (vs2', nm', nx') /\ sim vs' vs2'.
  Proof using.
    unfold ref_soft_step. intros H. binv H as v E1. binv H as v' E2. binv H as x E3. binv H as n1 E4. injection H as <- <- <-.
    pose proof E1 as [_ Hv]%sget_Ok. destruct (set_act_inv _ _ _ _ E2) as (s & s' & Hs & Hv' & Ho). split.
    - subst v'. by eapply keeps_set.
    - intros vs2 HS HD. destruct (sim_get _ _ _ _ HS E1 HD) as (v2 & -> & HV). cbn [mbind res_bind]. destruct (set_act_sim _ _ _ _ _ HV E2) as (v2' & -> & HV'). cbn [mbind res_bind].
      rewrite ?E3. cbn [mbind res_bind]. rewrite ?E4. cbn [mbind res_bind]. eexists. split; [reflexivity|]. by apply sim_set.
  Qed.
  Lemma soft_loop E i mx ps : forall vs nm nx vs' nm' nx', foldM (ref_soft_step E i mx) (vs, nm, nx) ps = Ok (vs', nm', nx') ->
    keeps vs vs' /\ forall vs2, sim vs vs2 -> (forall p, p ∈ ps -> ~ D (Z.to_nat (iv_index p))) ->
      exists vs2', foldM (ref_soft_step E i mx) (vs2, nm, nx) ps = Ok (vs2', nm', nx') /\ sim vs' vs2'.
  Proof using.
    induction ps as [|p ps IH]; intros vs nm nx vs' nm' nx'; cbn [foldM].
    - intros [= <- <- <-]. split; [apply keeps_refl|]. intros vs2 HS _. by exists vs2.
    - destruct (ref_soft_step E i mx (vs, nm, nx) p) as [[[vs1 nm1] nx1]|] eqn:E1; [|done]. intros H.
      apply soft_step in E1 as (K1 & S1). apply IH in H as (K2 & S2). split; [by eapply keeps_trans|].
      intros vs2 HS HF. destruct (S1 vs2 HS) as (vs2' & -> & HS'); [apply HF; left|]. apply S2; [done|]. intros q Hq. apply HF. by right.
  Qed.
  Lemma select_sim E lv vs2 cur label sp g : e_Mode E <> LayerMode3 -> length vs2 = length (lv_nodes lv) ->
    ref_select E (lv_set_nodes lv vs2) cur label sp g = ref_select E lv cur label sp g.
  Proof using. intros HM HL. unfold ref_select. cbn. rewrite HL. by destruct (e_Mode E). Qed.
  Lemma query_sim E lv anpl li i label sp g in_ anpl' lv' g' : e_Mode E <> LayerMode3 ->
    ref_query E lv anpl li i label sp g = Ok (in_, anpl', lv', g') ->
    keeps (lv_nodes lv) (lv_nodes lv') /\
    forall vs2, (forall cur, sget anpl li = Ok cur -> seen cur) -> sim (lv_nodes lv) vs2 -> (forall k, D k -> ~ lit (lv_nodes lv') k (Z.to_nat i)) ->
      exists vs2', ref_query E (lv_set_nodes lv vs2) anpl li i label sp g = Ok (in_, anpl', lv_set_nodes lv' vs2', g') /\ sim (lv_nodes lv') vs2'.
  Proof using.
    intros HM H. unfold ref_query in *. binv H as cur E1. binv H as [[sel in0] g0] E2. binv H as anpl1 E3. binv H as next E4.
    binv H as norm1 E5. binv H as [vs1 [next1 mx]] E6. binv H as [[vs3 norm2] next2] E7. binv H as anpl2 E8. injection H as <- <- <- <-.
    apply act_loop in E6 as (K1 & L1 & M1 & S1). cbn [map app] in M1. cbn [lv_nodes lv_set_norm lv_set_nodes].
    assert (Q : keeps vs1 vs3 /\ forall vs2, sim vs1 vs2 -> (forall k, D k -> ~ lit vs3 k (Z.to_nat i)) -> exists vs2',
      (if is_softmax (lv_type lv) then foldM (ref_soft_step E i mx) (vs2, norm1, []) next1 else Ok (vs2, norm1, next1)) = Ok (vs2', norm2, next2) /\ sim vs3 vs2').
    { destruct (is_softmax (lv_type lv)).
      - apply soft_loop in E7 as (K2 & S2). split; [done|]. intros vs2 HS HF. apply S2; [done|]. intros p Hp HD. apply (HF _ HD), K2.
        assert (HI : iv_index p ∈ map iv_index next) by (rewrite <- M1; by apply elem_of_list_fmap_1).
        apply elem_of_list_fmap in HI as (p' & -> & Hp'). by apply L1.
      - injection E7 as -> -> ->. split; [apply keeps_refl|]. intros vs2 HS _. by exists vs2. }
    destruct Q as [K2 S2]. split; [by eapply keeps_trans|]. intros vs2 HC HS HF.
    rewrite ?E1. cbn [mbind res_bind]. rewrite select_sim by (done || apply HS). rewrite ?E2. cbn [mbind res_bind].
    rewrite ?E3. cbn [mbind res_bind]. rewrite ?E4. cbn [mbind res_bind lv_set_nodes lv_type lv_norm lv_nodes]. rewrite ?E5. cbn [mbind res_bind].
    destruct (S1 vs2 (HC _ eq_refl) HS) as (vs2' & -> & HS1); [intros k HD HL; apply (HF k HD); by apply K2|]. cbn [mbind res_bind].
    destruct (S2 vs2' HS1 HF) as (vs2'' & -> & HS2). cbn [mbind res_bind]. rewrite ?E8. cbn [mbind res_bind].
    exists vs2''. split; [reflexivity|done].
  Qed.
End Layer.

(** * The network *)
Section Net.
  Context (D A : nat -> nat -> Prop).
  Definition lsim (j : nat) (lv lv2 : LayerView) : Prop := exists vs2, lv2 = lv_set_nodes lv vs2 /\ sim (D j) (A j) (lv_nodes lv) vs2.
  Record nsim (nv nv2 : NetView) : Prop := mkNsim {
    nm_rng : nv_rng nv2 = nv_rng nv;
    nm_seeds : nv_seeds nv2 = nv_seeds nv;
    nm_len : length (nv_layers nv2) = length (nv_layers nv);
    nm_layer : forall j lv, nv_layers nv !! j = Some lv -> exists lv2, nv_layers nv2 !! j = Some lv2 /\ lsim j lv lv2
  }.
  Lemma lsim_fields j lv lv2 : lv_type lv2 = lv_type lv -> lv_rand lv2 = lv_rand lv -> lv_norm lv2 = lv_norm lv -> lv_k lv2 = lv_k lv -> lv_l lv2 = lv_l lv ->
    lv_prev lv2 = lv_prev lv -> lv_tables lv2 = lv_tables lv -> lv_hash lv2 = lv_hash lv -> sim (D j) (A j) (lv_nodes lv) (lv_nodes lv2) -> lsim j lv lv2.
  Proof using. intros. exists (lv_nodes lv2). split; [|done]. destruct lv, lv2. cbn in *. by subst. Qed.
  Lemma differ_nsim nv nv2 : differ_only D A nv nv2 -> nsim nv nv2.
  Proof using.
    intros [H1 H2 H3 H4 H5]. constructor; [done..|]. intros j lv Hlv. destruct (lookup_lt_is_Some_2 (nv_layers nv2) j) as [lv2 Hlv2]; [rewrite H3; by eapply lookup_lt_Some|].
    exists lv2. split; [done|]. destruct (H4 _ _ _ Hlv Hlv2) as (A1 & A2 & A3 & A4 & A5 & A6 & A7 & A8 & A9). apply lsim_fields; [done..|]. split; [done|]. intros k v v2 Hk Hv Hv2. by eapply H5.
  Qed.
  Lemma nsim_differ nv nv2 : nsim nv nv2 -> differ_only D A nv nv2.
  Proof using.
    intros [H1 H2 H3 H4]. constructor; [done..| |].
    - intros j lv lv2 Hlv Hlv2. destruct (H4 _ _ Hlv) as (w & Hw & vs2 & -> & [A1 A2]). rewrite Hw in Hlv2. injection Hlv2 as <-. done.
    - intros j k lv lv2 v v2 Hlv Hlv2 HD Hv Hv2. destruct (H4 _ _ Hlv) as (w & Hw & vs2 & -> & [A1 A2]). rewrite Hw in Hlv2. injection Hlv2 as <-. by eapply A2.
  Qed.

  (** Slot [q] of node [k] of layer [j] is marked as active. *)
  Definition nlit (nv : NetView) (j k q : nat) : Prop := exists lv, nv_layers nv !! j = Some lv /\ lit (lv_nodes lv) k q.
  Definition nkeeps (nv nv' : NetView) : Prop := forall j k q, nlit nv j k q -> nlit nv' j k q.
  (** The nodes that may differ, and the inputs whose weights may differ, are not marked for input [q]; the features of that
      input are [feats]. *)
  Record dark (nv : NetView) (feats : list Pair) (q : nat) : Prop := mkDark {
    dk_node : forall j k, D j k -> ~ nlit nv j k q;
    dk_input : forall j k, A (S j) k -> ~ nlit nv j k q;
    dk_feature : forall p k, p ∈ feats -> A 0%nat k -> iv_index p <> Z.of_nat k
  }.
  Lemma dark_before nv nv' feats q : nkeeps nv nv' -> dark nv' feats q -> dark nv feats q.
  Proof using. intros HK [H1 H2 H3]. constructor; [| |done]; intros j k Hjk HL; [by apply (H1 _ _ Hjk), HK|by apply (H2 _ _ Hjk), HK]. Qed.
  (** The values that reach layer [j] come from the features or from marked nodes of the layer before. *)
  Definition fed (nv : NetView) (feats : list Pair) (q j : nat) (cur : list Pair) : Prop :=
    forall p, p ∈ cur -> match j with O => p ∈ feats | S j' => nlit nv j' (Z.to_nat (iv_index p)) q end.
  Lemma fed_seen nv feats q j cur : dark nv feats q -> fed nv feats q j cur -> seen (A j) cur.
  Proof using.
    intros [H1 H2 H3] HF p Hp H0 HA. specialize (HF p Hp). destruct j as [|j]; [apply (H3 p _ HF HA); lia|]. by apply (H2 _ _ HA).
  Qed.
  Lemma layer_sim E i label sps off anpl ins nv j anpl' ins' nv' feats : e_Mode E <> LayerMode3 ->
    ref_forward_layer E i label sps off (anpl, ins, nv) j = Ok (anpl', ins', nv') ->
    nkeeps nv nv' /\
    (forall out, anpl' !! Z.to_nat (j + 1) = Some out -> fed nv' feats (Z.to_nat i) (S (Z.to_nat j)) out) /\
    forall nv2, (forall cur, sget anpl j = Ok cur -> fed nv feats (Z.to_nat i) (Z.to_nat j) cur) -> nsim nv nv2 -> dark nv' feats (Z.to_nat i) ->
      exists nv2', ref_forward_layer E i label sps off (anpl, ins, nv2) j = Ok (anpl', ins', nv2') /\ nsim nv' nv2'.
  Proof using.
    intros HM H. unfold ref_forward_layer in *. binv H as lv E0. binv H as sp E1. binv H as [[[in_ an1] lv1] g1] E2. injection H as <- <- <-.
    apply sget_Ok in E0 as [Hj El]. pose proof (fun out p => query_slots _ _ _ _ _ _ _ _ _ _ _ _ out p E2) as QS.
    apply (query_sim (D (Z.to_nat j)) (A (Z.to_nat j))) in E2 as [K S]; [|done]. pose proof (lookup_lt_Some _ _ _ El) as Hlt.
    assert (HK : nkeeps nv (mkNV (<[Z.to_nat j := lv1]> (nv_layers nv)) g1 (nv_seeds nv))).
    { intros j' k q (w & Hw & HL). cbn. destruct (decide (j' = Z.to_nat j)) as [->|Hne].
      + rewrite El in Hw. injection Hw as <-. exists lv1. cbn. split; [by apply list_lookup_insert|by apply K].
      + exists w. cbn. by rewrite list_lookup_insert_ne. }
    split; [done|]. split.
    - intros out Hout p Hp. destruct (QS _ _ Hout Hp) as [d Hd]. unfold slot_at in Hd. destruct (lv_nodes lv1 !! Z.to_nat (iv_index p)) as [v|] eqn:Hv; [|done].
      exists lv1. cbn. split; [by apply list_lookup_insert|]. exists v, (mkSlot fone (iv_value p) d). done.
    - intros nv2 HC [N1 N2 N3 N4] HD. destruct (N4 _ _ El) as (lv2 & El2 & vs2 & -> & HS). rewrite (proj2 (sget_Ok _ _ _) (conj Hj El2)). cbn [mbind res_bind].
      rewrite ?E1. cbn [mbind res_bind]. rewrite N1. destruct (S vs2) as (vs2' & -> & HS').
      { intros cur Hcur. eapply fed_seen; [eapply dark_before; [exact HK|exact HD]|by apply HC]. }
      { done. }
      { intros k Hk HL. apply (dk_node _ _ _ HD _ _ Hk). exists lv1. cbn. split; [by apply list_lookup_insert|done]. }
      cbn [mbind res_bind]. rewrite N2. eexists. split; [reflexivity|]. constructor; cbn; [done|done|by rewrite !insert_length|].
      intros j' w Hw. destruct (decide (j' = Z.to_nat j)) as [->|Hne].
      + rewrite list_lookup_insert in Hw by done. injection Hw as <-. exists (lv_set_nodes lv1 vs2'). split; [apply list_lookup_insert; lia|]. by exists vs2'.
      + rewrite list_lookup_insert_ne in Hw by done. rewrite list_lookup_insert_ne by done. by apply N4.
  Qed.
  Lemma layers_sim E i label sps off feats len : e_Mode E <> LayerMode3 -> forall (j : nat) anpl ins nv anpl' ins' nv',
    foldM (ref_forward_layer E i label sps off) (anpl, ins, nv) (seqZ (Z.of_nat j) (Z.of_nat len)) = Ok (anpl', ins', nv') ->
    nkeeps nv nv' /\ forall nv2, (forall cur, anpl !! j = Some cur -> fed nv feats (Z.to_nat i) j cur) -> nsim nv nv2 -> dark nv' feats (Z.to_nat i) ->
      exists nv2', foldM (ref_forward_layer E i label sps off) (anpl, ins, nv2) (seqZ (Z.of_nat j) (Z.of_nat len)) = Ok (anpl', ins', nv2') /\ nsim nv' nv2'.
  Proof using.
    intros HM. induction len as [|len IH]; intros j anpl ins nv anpl' ins' nv'.
    - cbn. intros [= <- <- <-]. split; [by intros ? ? ?|]. intros nv2 _ HS _. by exists nv2.
    - rewrite seqZ_cons by lia. replace (Z.succ (Z.of_nat j)) with (Z.of_nat (S j)) by lia. replace (Z.pred (Z.of_nat (S len))) with (Z.of_nat len) by lia. cbn [foldM].
      destruct (ref_forward_layer E i label sps off (anpl, ins, nv) (Z.of_nat j)) as [[[an1 in1] nv1]|] eqn:E1; [|done]. intros H.
      apply (layer_sim _ _ _ _ _ _ _ _ _ _ _ _ feats HM) in E1 as (K1 & F1 & S1). apply IH in H as [K2 S2]. split; [intros ? ? ? ?; by apply K2, K1|].
      intros nv2 HC HS HD. destruct (S1 nv2) as (nv2' & -> & HS'); [|done|by eapply dark_before|].
      + intros cur Hcur. apply sget_Ok in Hcur as [_ Hcur]. rewrite Nat2Z.id in *. by apply HC.
      + apply S2; [|done..]. intros cur Hcur. rewrite Nat2Z.id in F1. apply F1. replace (Z.to_nat (Z.of_nat j + 1)) with (S j) by lia. done.
  Qed.
  Lemma forward_sim E num sps nv i feats label off anpl ins nv' : e_Mode E <> LayerMode3 ->
    ref_forward E num sps nv i feats label off = Ok (anpl, ins, nv') ->
    nkeeps nv nv' /\ forall nv2, nsim nv nv2 -> dark nv' feats (Z.to_nat i) ->
      exists nv2', ref_forward E num sps nv2 i feats label off = Ok (anpl, ins, nv2') /\ nsim nv' nv2'.
  Proof using.
    intros HM H. unfold ref_forward in *. binv H as a0 E0. binv H as a1 E1. rewrite ?E0. cbn [mbind res_bind]. rewrite ?E1. cbn [mbind res_bind].
    change 0 with (Z.of_nat 0) in H. apply (layers_sim _ _ _ _ _ feats _ HM) in H as [K S]. split; [done|]. intros nv2 HS HD. rewrite (nm_len _ _ HS).
    apply S; [|done..]. intros cur Hcur p Hp. apply sset_Ok in E1 as [Hr ->]. change (Z.to_nat 0) with 0%nat in Hcur. rewrite list_lookup_insert in Hcur by lia. by injection Hcur as <-.
  Qed.
  Lemma argmax_sim A' vs vs2 i ips : sim (fun k => ~ lit vs k (Z.to_nat i)) A' vs vs2 -> (forall k p, (k, p) ∈ ips -> lit vs (Z.to_nat (iv_index p)) (Z.to_nat i)) ->
    forall st r, foldM (ref_argmax vs i) st ips = Ok r -> foldM (ref_argmax vs2 i) st ips = Ok r.
  Proof using.
    intros HS. induction ips as [|[k p] ips IH]; intros HL st r; cbn [foldM]; [done|]. destruct (ref_argmax vs i st (k, p)) as [st'|] eqn:E1; [|done].
    intros H. assert (E2 : ref_argmax vs2 i st (k, p) = Ok st').
    { unfold ref_argmax in *. destruct st as [mx c]. binv E1 as v Ev. destruct (sim_get _ _ _ _ _ _ HS Ev) as (v2 & -> & (_ & _ & _ & HV & _)).
      - intros HN. apply HN. apply (HL k p). left.
      - cbn [mbind res_bind]. by rewrite HV. }
    rewrite E2. apply IH; [|done]. intros k' p' Hp. apply (HL k' p'). by right.
  Qed.
  Lemma one_sim E num sps nv i ex c nv' : e_Mode E <> LayerMode3 -> num = Z.of_nat (length (nv_layers nv)) ->
    ref_predict_one E num sps nv i ex = Ok (c, nv') ->
    length (nv_layers nv') = length (nv_layers nv) /\ nkeeps nv nv' /\ forall nv2, nsim nv nv2 -> dark nv' (features ex) (Z.to_nat i) ->
      exists nv2', ref_predict_one E num sps nv2 i ex = Ok (c, nv2') /\ nsim nv' nv2'.
  Proof using.
    intros HM Hnum H. unfold ref_predict_one in *. binv H as [[anpl ins] nv1] E1. binv H as out E2. binv H as lv E3. binv H as [mx c'] E4. injection H as <- <-.
    pose proof (forward_passed E (fun _ => False) num sps nv nv i (features ex) [] num anpl ins nv1 (net_same_refl _ _) Hnum E1) as HP.
    pose proof (forward_same _ _ _ _ _ _ _ _ _ _ _ E1) as FS.
    assert (HL1 : length (nv_layers nv1) = length (nv_layers nv)) by (symmetry; eapply Forall2_length; apply FS).
    pose proof E1 as [K S]%forward_sim; [|done]. split; [done|]. split; [done|].
    intros nv2 HS HD. destruct (S nv2 HS HD) as (nv2' & -> & HS'). cbn [mbind res_bind]. rewrite ?E2. cbn [mbind res_bind].
    apply sget_Ok in E3 as [H3 El]. destruct (nm_layer _ _ HS' _ _ El) as (lv2 & El2 & vs2 & -> & HSl). rewrite (proj2 (sget_Ok _ _ _) (conj H3 El2)). cbn [mbind res_bind lv_nodes lv_set_nodes].
    apply sget_Ok in E2 as [H2 Eo].
    assert (HN : (0 < length (nv_layers nv))%nat) by lia.
    erewrite (argmax_sim _ (lv_nodes lv) vs2 i (indexed out)); [|..|exact E4].
    - cbn [mbind res_bind]. by exists nv2'.
    - destruct HSl as [A1 A2]. split; [done|]. intros k v v2 Hk. apply A2. intros Hd. apply Hk. intros HL. apply (dk_node _ _ _ HD _ _ Hd). by exists lv.
    - intros k p Hp. assert (Hp' : p ∈ out). { apply elem_of_list_lookup in Hp as [q Hq]. unfold indexed in Hq. apply lookup_zip_with_Some in Hq as (x & y & [= <- <-] & _ & Hy). by eapply elem_of_list_lookup_2. }
      assert (HJ : (Z.to_nat (num - 1) < length (nv_layers nv))%nat) by lia.
      assert (HO : anpl !! Datatypes.S (Z.to_nat (num - 1)) = Some out) by (replace (Datatypes.S (Z.to_nat (num - 1))) with (Z.to_nat num) by lia; done).
      destruct (pa_slots _ _ _ _ _ _ _ _ _ _ HP _ _ _ p HJ El HO Hp') as [d Hd].
      unfold slot_at in Hd. destruct (lv_nodes lv !! Z.to_nat (iv_index p)) as [v|] eqn:Hv; [|done]. exists v, (mkSlot fone (iv_value p) d). done.
  Qed.
  Definition pstep (E : env) (num : Z) (sps : list float64) : Z * NetView -> Z * Example_ -> res (Z * NetView) := fun '(correct, nv) '(i, ex) =>
      '(c, nv) ← ref_predict_one E num sps nv i ex;
      Ok (if intSliceContains (labels ex) c then correct + 1 else correct, nv).
  Lemma psteps_sim E num sps ies : e_Mode E <> LayerMode3 -> forall cnt nv cnt' nv', num = Z.of_nat (length (nv_layers nv)) ->
    foldM (pstep E num sps) (cnt, nv) ies = Ok (cnt', nv') ->
    nkeeps nv nv' /\ forall nv2, nsim nv nv2 -> (forall i ex, (i, ex) ∈ ies -> dark nv' (features ex) (Z.to_nat i)) ->
      exists nv2', foldM (pstep E num sps) (cnt, nv2) ies = Ok (cnt', nv2') /\ nsim nv' nv2'.
  Proof using.
    intros HM. induction ies as [|[i ex] ies IH]; intros cnt nv cnt' nv' Hnum; cbn [foldM].
    - intros [= <- <-]. split; [by intros ? ? ?|]. intros nv2 HS _. by exists nv2.
    - unfold pstep at 1. destruct (ref_predict_one E num sps nv i ex) as [[c nv1]|] eqn:E1; cbn [mbind res_bind]; [|done]. intros H.
      apply one_sim in E1 as (L1 & K1 & S1); [|done..]. apply IH in H as [K2 S2]; [|by rewrite L1]. split; [intros ? ? ? ?; by apply K2, K1|].
      intros nv2 HS HD. destruct (S1 nv2 HS) as (nv2' & E2 & HS'); [eapply dark_before; [exact K2|apply (HD i ex); left]|].
      unfold pstep at 1. rewrite E2. cbn [mbind res_bind]. apply S2; [done|]. intros i' ex' Hi. apply (HD i' ex'). by right.
  Qed.
End Net.
Lemma idle_nlit nv b j k q : idle nv b j k -> (q < b)%nat -> ~ nlit nv j k q.
Proof. intros HI Hq (lv & Hlv & v & s & Hv & Hs & Ho). pose proof (HI lv v q s Hlv Hv Hq Hs) as HF. unfold on in Ho. congruence. Qed.
Lemma indexed_in {A} (xs : list A) i x : (i, x) ∈ indexed xs -> (Z.to_nat i < length xs)%nat /\ x ∈ xs.
Proof.
  intros [q Hq]%elem_of_list_lookup. unfold indexed in Hq. apply lookup_zip_with_Some in Hq as (a & y & [= <- <-] & Ha & Hy).
  split; [|by eapply elem_of_list_lookup_2]. apply lookup_seqZ in Ha. apply lookup_lt_Some in Hy. lia.
Qed.
Lemma predict_local E D A num sps nv nv2 exs cnt nv' : e_Mode E <> LayerMode3 -> num = Z.of_nat (length (nv_layers nv)) -> differ_only D A nv nv2 ->
  ref_predict E num sps nv exs = Ok (cnt, nv') -> (forall j k, D j k -> idle nv' (length exs) j k) -> (forall j q, A j q -> unused nv' exs j q) ->
  exists nv2', ref_predict E num sps nv2 exs = Ok (cnt, nv2') /\ nsim D A nv' nv2'.
Proof.
  intros HM Hnum HD H HI HU. unfold ref_predict in *. binv H as lv E1. apply (psteps_sim D A E num sps) in H as [_ S]; [|done..].
  pose proof (differ_nsim _ _ _ _ HD) as HN. apply sget_Ok in E1 as [A1 A2]. destruct (nm_layer _ _ _ _ HN _ _ A2) as (lv2 & B2 & _).
  rewrite (proj2 (sget_Ok _ _ _) (conj A1 B2)). cbn [mbind res_bind]. apply S; [done|]. intros i ex [Hi Hex]%indexed_in. constructor.
  - intros j k Hjk. eapply idle_nlit; [by apply HI|done].
  - intros j k Hjk. eapply idle_nlit; [by apply (HU (Datatypes.S j) k)|done].
  - intros p k Hp Hk. by apply (HU 0%nat k Hk ex p).
Qed.
Lemma predict_idle E D A m c n nv m2 c2 n2 nv2 exs cnt n' m' nv' : e_Mode E <> LayerMode3 ->
  live E m c n nv -> live E m2 c2 n2 nv2 -> nw_sparsity n2 = nw_sparsity n -> differ_only D A nv nv2 ->
  network_PredictClass E c n exs m = Ok ((cnt, n'), m') -> live E m' c n nv' ->
  (forall j k, D j k -> idle nv' (length exs) j k) -> (forall j q, A j q -> unused nv' exs j q) ->
  exists m2' nv2', network_PredictClass E c2 n2 exs m2 = Ok ((cnt, n2), m2') /\ live E m2' c2 n2 nv2' /\ differ_only D A nv' nv2'.
Proof.
  intros HM L L2 Hsp HD H L' HI HU. pose proof (live_predict E m c n nv exs L) as HR. pose proof (live_predict E m2 c2 n2 nv2 exs L2) as HR2.
  assert (HN : nw_num n = Z.of_nat (length (nv_layers nv))) by apply L.
  assert (HN2 : nw_num n2 = nw_num n). { rewrite HN. etransitivity; [apply L2|]. by rewrite (di_layers _ _ _ _ HD). }
  destruct (ref_predict E (nw_num n) (nw_sparsity n) nv exs) as [[cnt0 nv0]|] eqn:ER; cbn [refines] in HR; [|congruence].
  destruct HR as (a & m0 & H0 & -> & L0). rewrite H in H0. injection H0 as <- -> <-. cbn [fst snd] in *.
  rewrite (live_unique _ _ _ _ _ _ L' L0) in *. clear L' nv'.
  destruct (predict_local E D A (nw_num n) (nw_sparsity n) nv nv2 exs cnt nv0 HM HN HD ER HI HU) as (nv2' & ER2 & HS).
  rewrite HN2, Hsp, ER2 in HR2. cbn [refines] in HR2. destruct HR2 as (a2 & m2' & H2 & -> & L2'). cbn [fst snd] in *.
  exists m2', nv2'. split; [done|]. split; [done|]. by apply nsim_differ.
Qed.

(** * Perturbing a weight *)
Lemma node_of_live E m c n nv j k np : live E m c n nv -> node_of m n j k np ->
  exists lls ll lv ly v, net_rep m c (nw_layers n) lls nv /\ lays_ok lls /\ spare_ok E lls /\ lls !! j = Some ll /\ nv_layers nv !! j = Some lv /\
    ll_ns ll !! k = Some np /\ ll_lys ll !! k = Some ly /\ lv_nodes lv !! k = Some v /\ rep m c np ly v.
Proof.
  intros (_ & _ & lls & R & LO & SO) (ls & lp & L & ns & H1 & H2 & H3 & H4 & H5).
  rewrite (nr_arr _ _ _ _ _ R) in H1. injection H1 as <-. change (map ll_ptr lls) with (ll_ptr <$> lls) in H2. rewrite list_lookup_fmap in H2. destruct (lls !! j) as [ll|] eqn:Hll; [|done]. injection H2 as <-.
  destruct (lookup_lt_is_Some_2 (nv_layers nv) j) as [lv Hlv]; [rewrite <- (nr_len _ _ _ _ _ R); by eapply lookup_lt_Some|].
  pose proof (nr_at _ _ _ _ _ R _ _ _ Hll Hlv) as LR. rewrite (lr_layer _ _ _ _ LR) in H3. injection H3 as <-. cbn in H4. rewrite (lr_na _ _ _ _ LR) in H4. injection H4 as <-.
  pose proof (lr_nodes _ _ _ _ LR) as RS. pose proof (lookup_lt_Some _ _ _ H5) as Hlt.
  destruct (lookup_lt_is_Some_2 (ll_lys ll) k) as [ly Hly]; [rewrite (reps_l1 _ _ _ _ _ RS); done|].
  destruct (lookup_lt_is_Some_2 (lv_nodes lv) k) as [v Hv]; [rewrite (reps_l2 _ _ _ _ _ RS); done|].
  exists lls, ll, lv, ly, v. split_and!; try done. by eapply reps_at.
Qed.
Lemma idle_read E m c n nv j k np b : live E m c n nv -> node_of m n j k np -> idle_at m np b -> idle nv b j k.
Proof.
  intros L HN HI lv v q s Hlv Hv Hq Hs. destruct (node_of_live _ _ _ _ _ _ _ _ L HN) as (lls & ll & lv0 & ly & v0 & R & _ & _ & Hll & Hlv0 & _ & _ & Hv0 & RP).
  rewrite Hlv in Hlv0. injection Hlv0 as <-. rewrite Hv in Hv0. injection Hv0 as <-.
  destruct (Forall2_lookup_r _ _ _ _ _ (rep_slots _ _ _ _ _ RP) Hs) as (t & Ht & Htr).
  eapply (HI _ _ q t _ (rep_node _ _ _ _ _ RP) (rep_trs _ _ _ _ _ RP) Hq Ht Htr).
Qed.
Lemma perturb_live E m c n nv j k np w d x m2 : live E m c n nv -> node_of m n j k np -> node_PurturbWeight c np w d m = Ok (x, m2) ->
  exists nv2, live E m2 c n nv2 /\ differ_only (fun j' k' => j' = j /\ k' = k) (fun _ _ => False) nv nv2 /\
    differ_only (fun _ _ => False) (fun j' q => j' = j /\ Z.of_nat q = w) nv nv2.
Proof.
  intros L HN H. destruct (node_of_live _ _ _ _ _ _ _ _ L HN) as (lls & ll & lv & ly & v & R & LO & SO & Hll & Hlv & Hnp & Hly & Hv & RP).
  assert (OK : ly_ok ly) by (eapply (proj1 (Forall_forall _ _) (lo_ok _ LO _ _ Hll)); by eapply elem_of_list_lookup_2).
  pose proof (PurturbWeight_rep m c np ly v w d RP OK) as HR. destruct (add_at (v_w v) w d) as [ws|] eqn:EA; cbn [refines] in HR; [|congruence].
  destruct HR as (a & m0 & H0 & Ha & _ & RP' & T). rewrite H in H0. injection H0 as <- <-.
  apply net_inv_True in R. pose proof (net_node c _ lls LO _ _ _ _ _ _ _ _ _ _ R Hll Hlv Hly Hnp RP' T) as R2. apply net_inv_True in R2.
  pose proof (lookup_lt_Some _ _ _ Hlv) as HL. pose proof (lookup_lt_Some _ _ _ Hv) as HLk.
  unfold add_at in EA. binv EA as y Ey. apply sset_Ok in EA as [Hw ->].
  set (ws := <[Z.to_nat w := fadd y d]> (v_w v)) in *.
  exists (nv_set nv j (lv_set_nodes lv (<[k := v_set_w v ws]> (lv_nodes lv)))). split_and!.
  - destruct L as (Hc & Hnum & _). split; [done|]. split; [cbn; by rewrite insert_length|]. exists lls. split; [exact R2|done].
  - constructor; cbn; [done|done|by rewrite insert_length| |].
    + intros j' a b Ha' Hb. destruct (decide (j' = j)) as [->|Hne].
      * rewrite list_lookup_insert in Hb by done. injection Hb as <-. rewrite Hlv in Ha'. injection Ha' as <-. cbn. by rewrite insert_length.
      * rewrite list_lookup_insert_ne in Hb by done. rewrite Ha' in Hb. by injection Hb as <-.
    + intros j' k' a b u u2 Ha' Hb HD Hu Hu2. destruct (decide (j' = j)) as [->|Hne].
      * rewrite list_lookup_insert in Hb by done. injection Hb as <-. rewrite Hlv in Ha'. injection Ha' as <-. cbn in Hu2. rewrite list_lookup_insert_ne in Hu2 by naive_solver.
        rewrite Hu in Hu2. injection Hu2 as <-. apply sbw_refl.
      * rewrite list_lookup_insert_ne in Hb by done. rewrite Ha' in Hb. injection Hb as <-. rewrite Hu in Hu2. injection Hu2 as <-. apply sbw_refl.
  - constructor; cbn; [done|done|by rewrite insert_length| |].
    + intros j' a b Ha' Hb. destruct (decide (j' = j)) as [->|Hne].
      * rewrite list_lookup_insert in Hb by done. injection Hb as <-. rewrite Hlv in Ha'. injection Ha' as <-. cbn. by rewrite insert_length.
      * rewrite list_lookup_insert_ne in Hb by done. rewrite Ha' in Hb. by injection Hb as <-.
    + intros j' k' a b u u2 Ha' Hb HD Hu Hu2. destruct (decide (j' = j)) as [->|Hne].
      * rewrite list_lookup_insert in Hb by done. injection Hb as <-. rewrite Hlv in Ha'. injection Ha' as <-. cbn in Hu2. destruct (decide (k' = k)) as [->|Hk].
        -- rewrite list_lookup_insert in Hu2 by done. injection Hu2 as <-. rewrite Hv in Hu. injection Hu as <-. split_and!; cbn; try done; [apply insert_length|].
           intros q Hq. apply list_lookup_insert_ne. intros <-. apply Hq. split; [done|]. lia.
        -- rewrite list_lookup_insert_ne in Hu2 by done. rewrite Hu in Hu2. injection Hu2 as <-. apply sbw_refl.
      * rewrite list_lookup_insert_ne in Hb by done. rewrite Ha' in Hb. injection Hb as <-. rewrite Hu in Hu2. injection Hu2 as <-. apply sbw_refl.
Qed.
Lemma predict_perturbed E m c n nv exs cnt n' m' j k np w d x m2 : e_Mode E <> LayerMode3 -> live E m c n nv ->
  network_PredictClass E c n exs m = Ok ((cnt, n'), m') -> node_of m n j k np -> node_PurturbWeight c np w d m = Ok (x, m2) ->
  unread m' n exs j k w ->
  exists m2', network_PredictClass E c n exs m2 = Ok ((cnt, n), m2').
Proof.
  intros HM L H HN HP HU. destruct (perturb_live _ _ _ _ _ _ _ _ _ _ _ _ L HN HP) as (nv2 & L2 & HD1 & HD2).
  pose proof (live_predict E m c n nv exs L) as HR.
  destruct (ref_predict E (nw_num n) (nw_sparsity n) nv exs) as [[cnt0 nv0]|] eqn:ER; cbn [refines] in HR; [|congruence].
  destruct HR as (a & m0 & H0 & -> & L0). rewrite H in H0. injection H0 as <- -> <-. cbn [fst snd] in *.
  destruct HU as [(np' & HN' & HI)|HU].
  - destruct (predict_idle E _ _ m c n nv m2 c n nv2 exs cnt n m' nv0 HM L L2 eq_refl HD1 H L0) as (m2' & nv2' & HR2 & _); [|done|by exists m2'].
    intros j' k' [-> ->]. by eapply idle_read.
  - destruct (predict_idle E _ _ m c n nv m2 c n nv2 exs cnt n m' nv0 HM L L2 eq_refl HD2 H L0) as (m2' & nv2' & HR2 & _); [done| |by exists m2'].
    intros j' q [-> Hq]. destruct j as [|j]; cbn.
    + intros ex p Hex Hp. rewrite Hq. by apply (HU ex p).
    + destruct HU as (np' & HN' & HI). rewrite <- Hq, Nat2Z.id in HN'. by eapply idle_read.
Qed.
