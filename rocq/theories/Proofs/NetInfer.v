(** The outputs of the layers and the predicted class. *)
From Verif.Spec Require Export LayerSpec InferSpec.
From Verif.Spec Require HashSpec.
Local Notation sticky_max := HashSpec.sticky_max.
From Verif.Proofs Require Export NetLive FloatOrder.
From Verif.Proofs Require ChosenProofs.
From Coq Require Import Lia ZifyBool ZifyNat.
Local Open Scope Z_scope.

(** * Activations *)
Lemma activate_spec v cur i a v' : ref_activate v cur i = Ok (a, v') ->
  activation v cur a /\ 0 <= i /\ exists d, (Z.to_nat i < length (v_slots v))%nat /\ v' = v_set_slot v i (mkSlot fone a d).
Proof.
  unfold ref_activate, activation. destruct (_ <? _); [done|]. intros H. binv H as s E1. binv H as x E2.
  apply sget_Ok in E1 as [Hi Hs%lookup_lt_Some].
  destruct (v_type v); [destruct (fltb _ _) eqn:El|..]; try done; injection H as <- <-;
    (split; [exists x; split; [done|rewrite ?El; done]|eauto 10]).
Qed.
Lemma set_slot_twice v i s s' : v_set_slot (v_set_slot v i s) i s' = v_set_slot v i s'.
Proof. unfold v_set_slot. cbn. by rewrite list_insert_insert. Qed.
Lemma activate_again v cur i a v' : ref_activate v cur i = Ok (a, v') -> ref_activate v' cur i = Ok (a, v').
Proof.
  unfold ref_activate. destruct (v_batch v <? i) eqn:Eb; [done|]. intros H. binv H as s E1. binv H as x E2.
  apply sget_Ok in E1 as [Hi Hs].
  assert (HG : forall s', sget (<[Z.to_nat i := s']> (v_slots v)) i = Ok s').
  { intros s'. apply sget_Ok. split; [done|]. apply list_lookup_insert. by apply lookup_lt_Some in Hs. }
  destruct (v_type v) eqn:Et; [destruct (fltb _ _) eqn:El|..]; try done; injection H as <- <-;
    cbn [v_batch v_slots v_w v_type v_bias v_set_slot]; rewrite Eb, HG, Et; cbn [mbind res_bind]; rewrite E2; cbn [mbind res_bind];
    rewrite ?El; cbn [s_delta]; f_equal; f_equal; apply set_slot_twice.
Qed.

Lemma activation_same I v v' cur a : same_but I v v' -> activation v' cur a <-> activation v cur a.
Proof.
  intros [HL HI _ _]. unfold learned in HL. unfold identity in HI. injection HL as Hw _ _ _ Hb _ _ _ _. injection HI as Ht _ _.
  unfold activation. by rewrite Hw, Hb, Ht.
Qed.
Lemma Forall2_flip' {A B} (P : A -> B -> Prop) l k : Forall2 P l k -> Forall2 (fun b a => P a b) k l.
Proof. induction 1; by constructor. Qed.
Lemma activations_same I lv lv' cur ids acts : layer_same_but I lv lv' -> activations lv' cur ids acts -> activations lv cur ids acts.
Proof.
  intros LS. unfold activations. intros HF. eapply Forall2_impl; [exact HF|]. cbn beta. intros id a (H0 & v' & Hv' & Ha).
  split; [done|]. destruct (Forall2_lookup_r _ _ _ _ _ (ls_nodes _ _ _ LS) Hv') as (v & Hv & S).
  exists v. split; [done|]. by apply (activation_same _ _ _ _ _ S).
Qed.
Lemma output_same E I lv lv' cur ids out : layer_same_but I lv lv' -> layer_output E lv' cur ids out -> layer_output E lv cur ids out.
Proof.
  intros LS (acts & HA & HO). exists acts. split; [by eapply activations_same|]. by rewrite <- (ls_type _ _ _ LS).
Qed.
Lemma select_same E I lv lv' cur label sp g : layer_same_but I lv lv' -> ref_select E lv' cur label sp g = ref_select E lv cur label sp g.
Proof.
  intros []. unfold ref_select.
  assert (HN : length (lv_nodes lv') = length (lv_nodes lv)) by (symmetry; by eapply Forall2_length).
  assert (HP : map (fun v => (v_w v, v_bias v)) (lv_nodes lv') = map (fun v => (v_w v, v_bias v)) (lv_nodes lv)).
  { clear HN. induction ls_nodes as [|v v' l l' S HF IH]; [done|]. cbn. rewrite IH. f_equal.
    pose proof (sb_learned _ _ _ S) as HL. unfold learned in HL. injection HL as -> _ _ _ -> _ _ _ _. done. }
  by rewrite HN, HP, ls_type, ls_rand, ls_l, ls_tables, ls_hash.
Qed.
Lemma chosen_same E I lv lv' cur label sp ids : layer_same_but I lv lv' -> chosen E lv' cur label sp ids -> chosen E lv cur label sp ids.
Proof.
  intros LS. apply ChosenProofs.chosen_alike. destruct LS. constructor; try done.
  eapply Forall2_impl; [exact ls_nodes|]. intros v v' S. pose proof (sb_learned _ _ _ S) as HL. unfold learned in HL. by injection HL as -> _ _ _ -> _ _ _ _.
Qed.

(** * The loops of a query *)
Definition fmax_from (mx : float64) (xs : list float64) : float64 := fold_left (fun m x => if fltb m x then x else m) xs mx.
(** Keeping the first greatest value. *)
Lemma sticky_one v : sticky_max [v] 0.
Proof.
  exists v. split; [done|]. destruct (is_nan v) eqn:E; [done|]. exists v. split; [done|]. split; [done|]. split; [|lia].
  intros q' v' H. destruct q' as [|q']; [|done]. injection H as <-. apply fltb_irrefl.
Qed.
Lemma sticky_snoc vals q v x : sticky_max vals q -> vals !! q = Some v ->
  sticky_max (vals ++ [x]) (if fltb v x then length vals else q).
Proof.
  intros (v0 & H0 & HH) Hq. exists v0. split; [by apply lookup_app_l_Some|].
  destruct (is_nan v0) eqn:En.
  - subst q. rewrite H0 in Hq. injection Hq as <-. destruct v0; try done.
  - destruct HH as (v1 & Hv1 & Hn & Hmax & Hfst). rewrite Hq in Hv1. injection Hv1 as <-.
    destruct (fltb v x) eqn:El.
    + destruct (fltb_not_nan _ _ El) as [_ Hx]. exists x. split; [by apply list_lookup_middle|]. split; [done|].
      assert (HB : forall q' v', vals !! q' = Some v' -> is_nan v' = false -> fltb v' x = true).
      { intros q' v' Hv' Hn'. eapply fltb_le_lt_trans; [done|by eapply Hmax|done]. }
      split.
      * intros q' v' Hv'. apply lookup_app_Some in Hv' as [Hv'|[Hl Hv']].
        -- destruct (is_nan v') eqn:En'; [destruct v'; try done; apply fltb_nan_r|]. apply fltb_asym. by eapply HB.
        -- apply list_lookup_singleton_Some in Hv' as [_ <-]. apply fltb_irrefl.
      * intros q' v' Hlt Hv' Hn'. apply lookup_app_Some in Hv' as [Hv'|[Hl Hv']]; [by eapply HB|lia].
    + exists v. split; [by apply lookup_app_l_Some|]. split; [done|]. split.
      * intros q' v' Hv'. apply lookup_app_Some in Hv' as [Hv'|[Hl Hv']]; [by eapply Hmax|].
        apply list_lookup_singleton_Some in Hv' as [_ <-]. done.
      * intros q' v' Hlt Hv' Hn'. apply lookup_app_Some in Hv' as [Hv'|[Hl Hv']]; [by eapply Hfst|].
        apply lookup_lt_Some in Hq. lia.
Qed.
Lemma sticky_unique vals q q' : sticky_max vals q -> sticky_max vals q' -> q = q'.
Proof.
  intros (v0 & H0 & HH) (v0' & H0' & HH'). rewrite H0 in H0'. injection H0' as <-.
  destruct (is_nan v0); [congruence|]. destruct HH as (v & Hv & Hn & Hm & Hf), HH' as (v' & Hv' & Hn' & Hm' & Hf').
  destruct (lt_eq_lt_dec q q') as [[Hl|He]|Hl]; [|done|].
  - pose proof (Hf' _ _ Hl Hv Hn) as X. rewrite (Hm _ _ Hv') in X. done.
  - pose proof (Hf _ _ Hl Hv' Hn') as X. rewrite (Hm' _ _ Hv) in X. done.
Qed.
Lemma sticky_fold xs : forall vals q v, sticky_max vals q -> vals !! q = Some v ->
  exists q', sticky_max (vals ++ xs) q' /\ (vals ++ xs) !! q' = Some (fmax_from v xs).
Proof.
  induction xs as [|x xs IH]; intros vals q v Hs Hq.
  - exists q. by rewrite app_nil_r.
  - pose proof (sticky_snoc _ _ _ x Hs Hq) as Hs'. cbn [fmax_from fold_left]. fold (fmax_from (if fltb v x then x else v) xs).
    rewrite cons_middle, (assoc_L (++)). eapply IH; [exact Hs'|].
    destruct (fltb v x); [by apply list_lookup_middle|by apply lookup_app_l_Some].
Qed.
Lemma fmax_greatest xs : greatest xs (fmax_from fzero xs).
Proof. destruct (sticky_fold xs [fzero] 0 fzero (sticky_one _) eq_refl) as (q & H1 & H2). by exists q. Qed.
Lemma greatest_unique xs mx mx' : greatest xs mx -> greatest xs mx' -> mx = mx'.
Proof. intros (q & Hs & Hq) (q' & Hs' & Hq'). rewrite (sticky_unique _ _ _ Hs Hs') in Hq. congruence. Qed.
Lemma greatest_bound xs mx : greatest xs mx -> is_nan mx = false /\ mx ∈ fzero :: xs /\ Forall (fun x => fltb mx x = false) (fzero :: xs).
Proof.
  intros (q & (v0 & H0 & HH) & Hq). injection H0 as <-. cbn [is_nan] in HH. destruct HH as (v & Hv & Hn & Hm & _).
  rewrite Hq in Hv. injection Hv as <-. split; [done|]. split; [by eapply elem_of_list_lookup_2|]. apply Forall_lookup. done.
Qed.

(** [vs] is [vs0] after the nodes [ids] have been activated. *)
Definition acted (i : Z) (cur : list Pair) (ids : list Z) (vs0 vs : list NodeView) : Prop :=
  length vs = length vs0 /\
  forall k v0 v, vs0 !! k = Some v0 -> vs !! k = Some v ->
    (Z.of_nat k ∈ ids -> exists a, ref_activate v0 cur i = Ok (a, v)) /\ (Z.of_nat k ∉ ids -> v = v0).
Lemma acted_nil i cur vs : acted i cur [] vs vs.
Proof. split; [done|]. intros k v0 v H1 H2. rewrite H1 in H2. injection H2 as ->. split; [by intros ?%elem_of_nil|done]. Qed.

Lemma act_loop i cur sm vs0 next : forall ids vs pre mx vs' out mx',
  acted i cur ids vs0 vs ->
  foldM (ref_act_step sm cur i) (vs, (pre, mx)) next = Ok (vs', (out, mx')) ->
  acted i cur (ids ++ map iv_index next) vs0 vs' /\
  exists acts, Forall2 (fun p a => 0 <= iv_index p /\ exists v0 v1, vs0 !! Z.to_nat (iv_index p) = Some v0 /\ ref_activate v0 cur i = Ok (a, v1)) next acts /\
    out = pre ++ zip_with mkPair (map iv_index next) acts /\ mx' = if sm then fmax_from mx acts else mx.
Proof.
  induction next as [|p next IH]; intros ids vs pre mx vs' out mx' A; cbn [foldM map].
  - intros [= <- <- <-]. rewrite app_nil_r. split; [done|]. exists []. rewrite app_nil_r. split; [done|]. split; [done|]. by destruct sm.
  - destruct (ref_act_step _ _ _ _ _) as [[vs1 [pre1 mx1]]|] eqn:E1; [|done]. intros H.
    apply act_step_inv in E1 as (v & a & v' & H0 & Ev & Ea & -> & -> & ->).
    destruct A as [AL AK].
    destruct (lookup_lt_is_Some_2 vs0 (Z.to_nat (iv_index p))) as [v0 Ev0].
    { rewrite <- AL. by apply lookup_lt_Some in Ev. }
    destruct (AK _ _ _ Ev0 Ev) as [A1 A2].
    assert (Ea0 : ref_activate v0 cur i = Ok (a, v')).
    { destruct (decide (Z.of_nat (Z.to_nat (iv_index p)) ∈ ids)) as [Hin|Hin].
      - destruct (A1 Hin) as [a' Ha']. pose proof (activate_again _ _ _ _ _ Ha') as Hag. rewrite Hag in Ea. by injection Ea as <- <-.
      - by rewrite <- (A2 Hin). }
    eapply (IH (ids ++ [iv_index p])) in H as (HA & acts & HF & -> & ->).
    + rewrite <- (assoc_L (++)) in HA. split; [exact HA|]. exists (a :: acts). split; [|split].
      * constructor; [|done]. eauto 10.
      * by rewrite <- (assoc_L (++)).
      * by destruct sm.
    + split; [by rewrite insert_length|]. intros k w0 w Hw0 Hw.
      destruct (decide (k = Z.to_nat (iv_index p))) as [->|Hne].
      * rewrite list_lookup_insert in Hw by (by eapply lookup_lt_Some). rewrite Ev0 in Hw0. injection Hw0 as <-. injection Hw as <-.
        split; [eauto|]. intros Hn. exfalso. apply Hn. apply elem_of_app. right. rewrite Z2Nat.id by done. by left.
      * rewrite list_lookup_insert_ne in Hw by done. destruct (AK _ _ _ Hw0 Hw) as [B1 B2].
        rewrite elem_of_app, elem_of_list_singleton. split; [|intros Hn; apply B2; tauto].
        intros [?|Hk]; [by apply B1|]. exfalso. lia.
Qed.

(** Nodes of [vs] that are in [ids] have been activated and their activation replaced. *)
Definition softened (E : env) (i : Z) (cur : list Pair) (mx : float64) (all ids : list Z) (vs0 vs : list NodeView) : Prop :=
  length vs = length vs0 /\
  forall k v0 v, vs0 !! k = Some v0 -> vs !! k = Some v ->
    (Z.of_nat k ∈ ids -> exists a d, ref_activate v0 cur i = Ok (a, v_set_slot v0 i (mkSlot fone a d)) /\
        v = v_set_slot v0 i (mkSlot fone (e_exp E (fsub a mx)) d)) /\
    (Z.of_nat k ∈ all -> Z.of_nat k ∉ ids -> exists a, ref_activate v0 cur i = Ok (a, v)) /\
    (Z.of_nat k ∉ all -> v = v0).
Lemma acted_softened E i cur mx all vs0 vs : acted i cur all vs0 vs -> softened E i cur mx all [] vs0 vs.
Proof.
  intros [L A]. split; [done|]. intros k v0 v H1 H2. destruct (A _ _ _ H1 H2). split; [by intros ?%elem_of_nil|]. split; [eauto|done].
Qed.

Lemma soft_loop E i cur mx vs0 all next : forall ids vs norm pre vs' norm' out,
  (forall p, p ∈ next -> 0 <= iv_index p /\ iv_index p ∈ all /\ exists v0 v1, vs0 !! Z.to_nat (iv_index p) = Some v0 /\ ref_activate v0 cur i = Ok (iv_value p, v1)) ->
  (forall k, k ∈ ids -> k ∈ all) ->
  softened E i cur mx all ids vs0 vs ->
  foldM (ref_soft_step E i mx) (vs, norm, pre) next = Ok (vs', norm', out) ->
  softened E i cur mx all (ids ++ map iv_index next) vs0 vs' /\
  out = pre ++ zip_with mkPair (map iv_index next) (exps E (map iv_value next) mx) /\
  (next <> [] -> 0 <= i) /\
  (forall x, norm !! Z.to_nat i = Some x -> norm' = <[Z.to_nat i := fold_left fadd (exps E (map iv_value next) mx) x]> norm).
Proof.
  induction next as [|p next IH]; intros ids vs norm pre vs' norm' out HN HI A; cbn [foldM map].
  - intros [= <- <- <-]. rewrite !app_nil_r. split; [done|]. split; [done|]. split; [done|].
    intros x Hx. cbn. by rewrite list_insert_id.
  - destruct (ref_soft_step _ _ _ _ _) as [[[vs1 norm1] pre1]|] eqn:E1; [|done]. intros H.
    apply soft_step_inv in E1 as (v & v' & x & H0 & Ev & Es & Hi & Hx & -> & -> & ->).
    destruct A as [AL AK]. destruct (HN p) as (_ & Hall & v0 & v1 & Ev0 & Ea); [by left|].
    destruct (AK _ _ _ Ev0 Ev) as (A1 & A2 & _).
    destruct (activate_spec _ _ _ _ _ Ea) as (_ & _ & d & Hd & ->).
    assert (Ev' : v' = v_set_slot v0 i (mkSlot fone (e_exp E (fsub (iv_value p) mx)) d)).
    { assert (HG : forall s', <[Z.to_nat i := s']> (v_slots v0) !! Z.to_nat i = Some s') by (intros; by apply list_lookup_insert).
      unfold ref_set_act in Es. destruct (decide (Z.of_nat (Z.to_nat (iv_index p)) ∈ ids)) as [Hin|Hin].
      - destruct (A1 Hin) as (a' & d' & Ha' & ->). rewrite Ea in Ha'. apply (f_equal (fun r => match r with Ok (a, w) => Some (a, v_slots w !! Z.to_nat i) | Panic _ => None end)) in Ha'.
        cbn in Ha'. rewrite !HG in Ha'. injection Ha' as <- _ <-.
        binv Es as s E2. apply sget_Ok in E2 as [_ E2]. cbn in E2. rewrite HG in E2. injection E2 as <-.
        injection Es as <-. cbn. by rewrite set_slot_twice.
      - assert (Hall' : Z.of_nat (Z.to_nat (iv_index p)) ∈ all) by (by rewrite Z2Nat.id).
        destruct (A2 Hall' Hin) as (a' & Ha'). rewrite Ea in Ha'. injection Ha' as _ <-.
        binv Es as s E2. apply sget_Ok in E2 as [_ E2]. cbn in E2. rewrite HG in E2. injection E2 as <-.
        injection Es as <-. cbn. by rewrite set_slot_twice. }
    eapply (IH (ids ++ [iv_index p])) in H as (HA & -> & Hi' & HX).
    + rewrite <- (assoc_L (++)) in HA. split; [exact HA|]. split; [by rewrite <- (assoc_L (++))|]. split; [done|].
      intros y Hy. rewrite Hx in Hy. injection Hy as <-.
      rewrite (HX (fadd x (e_exp E (fsub (iv_value p) mx)))) by (apply list_lookup_insert; by apply lookup_lt_Some in Hx).
      cbn [exps map fold_left]. by rewrite list_insert_insert.
    + intros q Hq. apply HN. by right.
    + intros k [?|Hk]%elem_of_app; [by apply HI|]. apply elem_of_list_singleton in Hk as ->. done.
    + split; [by rewrite insert_length|]. intros k w0 w Hw0 Hw.
      destruct (decide (k = Z.to_nat (iv_index p))) as [->|Hne].
      * rewrite list_lookup_insert in Hw by (by eapply lookup_lt_Some). rewrite Ev0 in Hw0. injection Hw0 as <-. injection Hw as <-.
        rewrite Z2Nat.id by done. split; [|split].
        -- intros _. exists (iv_value p), d. by split.
        -- intros _ Hn. exfalso. apply Hn. apply elem_of_app. right. by left.
        -- done.
      * rewrite list_lookup_insert_ne in Hw by done. destruct (AK _ _ _ Hw0 Hw) as (B1 & B2 & B3).
        rewrite elem_of_app, elem_of_list_singleton. split; [|split].
        -- intros [?|Hk]; [by apply B1|]. exfalso. lia.
        -- intros Hk Hn. apply B2; tauto.
        -- done.
Qed.

(** * A query in full *)
Lemma zip_index (ids : list Z) (xs : list float64) : length ids = length xs -> map iv_index (zip_with mkPair ids xs) = ids.
Proof. revert xs. induction ids as [|a ids IH]; intros [|x xs] H; cbn in *; try done. by rewrite IH by lia. Qed.
Lemma zip_value (ids : list Z) (xs : list float64) : length ids = length xs -> map iv_value (zip_with mkPair ids xs) = xs.
Proof. revert xs. induction ids as [|a ids IH]; intros [|x xs] H; cbn in *; try done. by rewrite IH by lia. Qed.
Lemma exps_length E xs mx : length (exps E xs mx) = length xs.
Proof. apply map_length. Qed.

Lemma acts_activations lv cur i (next : list Pair) acts :
  Forall2 (fun p a => 0 <= iv_index p /\ exists v0 v1, lv_nodes lv !! Z.to_nat (iv_index p) = Some v0 /\ ref_activate v0 cur i = Ok (a, v1)) next acts ->
  activations lv cur (map iv_index next) acts.
Proof.
  intros HF. unfold activations. apply Forall2_fmap_l. eapply Forall2_impl; [exact HF|]. cbn. intros p a (H0 & v0 & v1 & Hv & Ha).
  split; [done|]. exists v0. split; [done|]. by apply activate_spec in Ha as [? _].
Qed.

Lemma query_full E lv anpl li i label sp g in_ anpl' lv' g' :
  ref_query E lv anpl li i label sp g = Ok (in_, anpl', lv', g') ->
  exists cur sel ids acts out,
    sget anpl li = Ok cur /\ ref_select E lv cur label sp g = Ok (sel, in_, g') /\
    0 <= li + 1 /\ (Z.to_nat (li + 1) < length anpl)%nat /\
    ids = match sel with Some act => map iv_index act | None => map iv_index (default [] (anpl !! Z.to_nat (li + 1))) end /\
    activations lv cur ids acts /\ anpl' = <[Z.to_nat (li + 1) := out]> anpl /\
    if is_softmax (lv_type lv) then
      let mx := fmax_from fzero acts in
      out = zip_with mkPair ids (exps E acts mx) /\ 0 <= i < Z.of_nat (length (lv_norm lv)) /\
      lv_norm lv' = <[Z.to_nat i := fold_left fadd (exps E acts mx) fzero]> (lv_norm lv) /\
      softened E i cur mx ids ids (lv_nodes lv) (lv_nodes lv')
    else out = zip_with mkPair ids acts /\ lv_norm lv' = lv_norm lv /\ acted i cur ids (lv_nodes lv) (lv_nodes lv').
Proof.
  intros H. apply query_inv in H as (cur & sel & anpl1 & next & norm1 & vs1 & next1 & mx & vs2 & norm2 & next2 & E1 & E2 & E3 & E4 & E5 & E6 & E7 & E8 & ->).
  apply (act_loop i cur _ (lv_nodes lv) _ [] _ _ _ _ _ _ (acted_nil _ _ _)) in E6 as (HA & acts & HF & -> & ->).
  cbn [app] in *. pose proof (acts_activations _ _ _ _ _ HF) as HA'.
  apply sget_Ok in E4 as [H0 E4].
  assert (HL : (Z.to_nat (li + 1) < length anpl)%nat).
  { apply lookup_lt_Some in E4. subst anpl1. destruct sel; [by rewrite insert_length in E4|done]. }
  assert (Hids : map iv_index next = match sel with Some act => map iv_index act | None => map iv_index (default [] (anpl !! Z.to_nat (li + 1))) end).
  { subst anpl1. destruct sel as [act|].
    - rewrite list_lookup_insert in E4 by done. by injection E4 as <-.
    - by rewrite E4. }
  assert (Ea : anpl' = <[Z.to_nat (li + 1) := next2]> anpl).
  { subst anpl' anpl1. destruct sel; [by rewrite list_insert_insert|done]. }
  assert (HLa : length (map iv_index next) = length acts) by (rewrite map_length; by eapply Forall2_length).
  exists cur, sel, (map iv_index next), acts, next2. split_and!; try done.
  destruct (is_softmax (lv_type lv)); cbn zeta.
  - apply sset_Ok in E5 as [Hi ->].
    eapply (soft_loop E i cur _ (lv_nodes lv) (map iv_index next) _ []) in E7 as (HS & -> & _ & HN).
    + rewrite zip_index, zip_value in * by done. split; [done|]. split; [done|]. split; [|done].
      cbn [lv_set_norm lv_norm lv_set_nodes]. erewrite HN by (apply list_lookup_insert; lia). by rewrite list_insert_insert.
    + intros p (k & Hk)%elem_of_list_lookup. apply lookup_zip_with_Some in Hk as (id & a & -> & Hid & Hac).
      apply list_lookup_fmap_inv in Hid as (q & -> & Hq). destruct (Forall2_lookup_lr _ _ _ _ _ _ HF Hq Hac) as (Hq0 & v0 & v1 & Hv & Ha).
      cbn. split; [done|]. split; [apply elem_of_list_fmap; exists q; split; [done|by eapply elem_of_list_lookup_2]|eauto].
    + by intros k ?%elem_of_nil.
    + by apply acted_softened.
  - injection E7 as <- <- <-. injection E5 as <-. done.
Qed.

(** The active nodes' slots after a query. *)
Lemma acted_slot i cur ids vs0 vs k : acted i cur ids vs0 vs -> k ∈ ids -> 0 <= k < Z.of_nat (length vs0) ->
  exists a d v0, vs0 !! Z.to_nat k = Some v0 /\ activation v0 cur a /\ slot_at vs k i = Some (mkSlot fone a d).
Proof.
  intros [HL A] Hk Hr. destruct (lookup_lt_is_Some_2 vs0 (Z.to_nat k)) as [v0 E0]; [lia|].
  destruct (lookup_lt_is_Some_2 vs (Z.to_nat k)) as [v Ev]; [lia|].
  destruct (A _ _ _ E0 Ev) as [A1 _]. destruct A1 as [a Ha]; [by rewrite Z2Nat.id by lia|].
  destruct (activate_spec _ _ _ _ _ Ha) as (HA & _ & d & Hd & ->).
  exists a, d, v0. split; [done|]. split; [done|]. unfold slot_at. rewrite Ev. cbn. by rewrite list_lookup_insert.
Qed.
Lemma activation_fun v cur a b : activation v cur a -> activation v cur b -> a = b.
Proof. intros (s & H1 & H2) (s' & H1' & H2'). rewrite H1 in H1'. injection H1' as <-. destruct (v_type v); [congruence..|done]. Qed.

(** The values in the output are the activations of the nodes. *)
Lemma query_slots E lv anpl li i label sp g in_ anpl' lv' g' out p :
  ref_query E lv anpl li i label sp g = Ok (in_, anpl', lv', g') ->
  anpl' !! Z.to_nat (li + 1) = Some out -> p ∈ out ->
  exists d, slot_at (lv_nodes lv') (iv_index p) i = Some (mkSlot fone (iv_value p) d).
Proof.
  intros H Ho Hp. apply query_full in H as (cur & sel & ids & acts & out' & _ & _ & _ & HL & _ & HA & -> & HS).
  rewrite list_lookup_insert in Ho by done. injection Ho as ->.
  apply elem_of_list_lookup in Hp as [k Hk].
  destruct (is_softmax (lv_type lv)).
  - destruct HS as (-> & _ & _ & [HL' HS]).
    apply lookup_zip_with_Some in Hk as (id & a & -> & Hid & Ha). apply list_lookup_fmap_inv in Ha as (a' & -> & Ha').
    destruct (Forall2_lookup_lr _ _ _ _ _ _ HA Hid Ha') as (H0 & v0 & Hv & HV). cbn [iv_index iv_value].
    destruct (lookup_lt_is_Some_2 (lv_nodes lv') (Z.to_nat id)) as [v Ev]; [rewrite HL'; by apply lookup_lt_Some in Hv|].
    destruct (HS _ _ _ Hv Ev) as (S1 & _). destruct S1 as (a2 & d & Hr & ->); [rewrite Z2Nat.id by done; by eapply elem_of_list_lookup_2|].
    destruct (activate_spec _ _ _ _ _ Hr) as (HA2 & _ & d2 & Hd2 & _). rewrite (activation_fun _ _ _ _ HV HA2).
    exists d. unfold slot_at. rewrite Ev. cbn. by rewrite list_lookup_insert.
  - destruct HS as (-> & _ & HS).
    apply lookup_zip_with_Some in Hk as (id & a & -> & Hid & Ha).
    destruct (Forall2_lookup_lr _ _ _ _ _ _ HA Hid Ha) as (H0 & v0 & Hv & HV). cbn [iv_index iv_value].
    destruct (acted_slot _ _ _ _ _ id HS) as (a2 & d & v0' & Hv' & HV' & HQ); [by eapply elem_of_list_lookup_2|apply lookup_lt_Some in Hv; lia|].
    rewrite Hv in Hv'. injection Hv' as <-. rewrite (activation_fun _ _ _ _ HV HV'). by exists d.
Qed.

Lemma query_norm E lv anpl li i label sp g in_ anpl' lv' g' out :
  ref_query E lv anpl li i label sp g = Ok (in_, anpl', lv', g') ->
  anpl' !! Z.to_nat (li + 1) = Some out -> is_softmax (lv_type lv') = true ->
  0 <= i /\ lv_norm lv' !! Z.to_nat i = Some (fold_left fadd (map iv_value out) fzero).
Proof.
  intros H Ho Hs. pose proof (query_same _ _ _ _ _ _ _ _ _ _ _ _ H) as [QS _]. rewrite (ls_type _ _ _ QS) in Hs.
  apply query_full in H as (cur & sel & ids & acts & out' & _ & _ & _ & HL & _ & HA & -> & HS).
  rewrite list_lookup_insert in Ho by done. injection Ho as ->. rewrite Hs in HS. cbn zeta in HS.
  destruct HS as (-> & Hi & -> & _). split; [lia|]. rewrite list_lookup_insert by lia. f_equal.
  rewrite zip_value; [done|]. rewrite exps_length. by eapply Forall2_length.
Qed.

(** * The forward pass *)
Lemma foldM_keep {S A} (P : list A -> S -> Prop) (f : S -> A -> res S) xs s s' :
  P [] s -> (forall pre x s0 s1, P pre s0 -> pre ++ [x] `prefix_of` xs -> f s0 x = Ok s1 -> P (pre ++ [x]) s1) ->
  foldM f s xs = Ok s' -> P xs s'.
Proof.
  intros H0 Hs. assert (G : forall post pre s0, xs = pre ++ post -> P pre s0 -> foldM f s0 post = Ok s' -> P xs s').
  { induction post as [|x post IH]; intros pre s0 -> Hp; cbn [foldM].
    - intros [= <-]. by rewrite app_nil_r.
    - destruct (f s0 x) as [s1|] eqn:E; [|done]. intros H. apply (IH (pre ++ [x]) s1); [by rewrite <- (assoc_L (++))| |done].
      eapply Hs; [done| |done]. exists post. by rewrite <- (assoc_L (++)). }
  by apply (G xs []).
Qed.

(** After [k] layers: the first [k + 1] entries are outputs, the others are empty. *)
Record passed (E : env) (lvs : list LayerView) (sparsity : list float64) (off : Z) (label : list Z) (feats : list Pair)
    (i : Z) (k : nat) (anpl : list (list Pair)) (cur : list LayerView) : Prop := mkPassed {
  pa_len : length anpl = S (length lvs);
  pa_first : anpl !! 0%nat = Some feats;
  pa_at : forall j lv c out, (j < k)%nat -> lvs !! j = Some lv -> anpl !! j = Some c -> anpl !! S j = Some out ->
    exists sp ids, 0 <= off + Z.of_nat j /\ sparsity !! Z.to_nat (off + Z.of_nat j) = Some sp /\ chosen E lv c label sp ids /\ layer_output E lv c ids out;
  pa_rest : forall j, (k < j < S (length lvs))%nat -> anpl !! j = Some [];
  pa_slots : forall j lv' out p, (j < k)%nat -> cur !! j = Some lv' -> anpl !! S j = Some out -> p ∈ out ->
    exists d, slot_at (lv_nodes lv') (iv_index p) i = Some (mkSlot fone (iv_value p) d);
  pa_norm : forall j lv' out, (j < k)%nat -> cur !! j = Some lv' -> anpl !! S j = Some out -> is_softmax (lv_type lv') = true ->
    0 <= i /\ lv_norm lv' !! Z.to_nat i = Some (fold_left fadd (map iv_value out) fzero)
}.

Lemma forward_passed E I num sps nv0 nv i feats label off anpl ins nv' :
  net_same_but I nv0 nv -> num = Z.of_nat (length (nv_layers nv0)) ->
  ref_forward E num sps nv i feats label off = Ok (anpl, ins, nv') ->
  passed E (nv_layers nv0) sps off label feats i (length (nv_layers nv0)) anpl (nv_layers nv').
Proof.
  intros NS -> H. assert (HL : length (nv_layers nv) = length (nv_layers nv0)) by (symmetry; eapply Forall2_length; apply NS).
  assert (NS0 : net_same_but (fun k => I k \/ k = i) nv0 nv) by (eapply net_same_weaken; [|exact NS]; tauto).
  clear NS. unfold ref_forward in H. binv H as a0 E0. binv H as a1 E1. apply make_slice_Ok in E0 as [Hn ->]. apply sset_Ok in E1 as [_ ->].
  set (P := fun (pre : list Z) (st : list (list Pair) * list Z * NetView) =>
     net_same_but (fun k => I k \/ k = i) nv0 st.2 /\ passed E (nv_layers nv0) sps off label feats i (length pre) st.1.1 (nv_layers st.2)).
  assert (HP : P (seqZ 0 (Z.of_nat (length (nv_layers nv)))) (anpl, ins, nv')).
  2:{ destruct HP as [_ HP]. rewrite seqZ_length, HL, Nat2Z.id in HP. done. }
  revert H. apply foldM_keep.
  - split; [done|]. constructor; cbn.
    + rewrite insert_length, replicate_length. lia.
    + change (Z.to_nat 0) with 0%nat. apply list_lookup_insert. rewrite replicate_length. lia.
    + lia.
    + intros j Hj. rewrite list_lookup_insert_ne by lia. apply lookup_replicate. split; [done|]. lia.
    + lia.
    + lia.
  - intros pre j [[an is_] nv1] [[an' is'] nv1'] [H1 H2] Hpre H. cbn in H1, H2. unfold ref_forward_layer in H.
    binv H as lv E0. binv H as sp E1. binv H as [[[in_ an1] lv1] g1] E2.
    injection H as <- <- <-. unfold P. rewrite app_length. cbn [length fst snd].
    assert (Hj : j = Z.of_nat (length pre)).
    { destruct Hpre as [q Hq]. assert (Hl : (seqZ 0 (Z.of_nat (length (nv_layers nv)))) !! length pre = Some j).
      { rewrite Hq, <- (assoc_L (++)). by apply list_lookup_middle. } apply lookup_seqZ in Hl. lia. }
    subst j. apply sget_Ok in E0 as [_ El]. rewrite Nat2Z.id in El. apply sget_Ok in E1 as [Hs0 Esp].
    destruct (Forall2_lookup_r _ _ _ _ _ (ns_layers _ _ _ H1) El) as (lv0 & El0 & LS).
    pose proof (query_same _ _ _ _ _ _ _ _ _ _ _ _ E2) as [QS QL].
    pose proof (lookup_lt_Some _ _ _ El0) as Hlt.
    split.
    + cbn. destruct H1 as [HS HF]. constructor; [done|]. cbn.
      eapply Forall2_upd; [apply layer_same_trans|done|rewrite Nat2Z.id; exact El|]. eapply layer_same_weaken; [|exact QS]. intros k <-. by right.
    + pose proof (query_slots E lv an (Z.of_nat (length pre)) i label sp) as QSl.
      cbn [fst snd nv_layers]. rewrite Nat2Z.id. pose proof E2 as E2'.
      apply query_full in E2 as (c & sel & ids & acts & out & Ec & Esel & _ & Hlen & Hids & HA & -> & HO).
      replace (Z.to_nat (Z.of_nat (length pre) + 1)) with (S (length pre)) in * by lia.
      apply sget_Ok in Ec as [_ Ec]. rewrite Nat2Z.id in Ec.
      pose proof (query_norm _ _ _ _ _ _ _ _ _ _ _ _ out E2') as QN. destruct H2 as [P1 P2 P3 P4 P5 P6]. constructor.
      * by rewrite insert_length.
      * by rewrite list_lookup_insert_ne by lia.
      * intros j w c' out' Hj Hw Hc' Ho'. destruct (decide (j = length pre)) as [->|Hne].
        -- rewrite list_lookup_insert_ne in Hc' by lia. rewrite Ec in Hc'. injection Hc' as <-.
           rewrite list_lookup_insert in Ho' by done. injection Ho' as <-. rewrite El0 in Hw. injection Hw as <-.
           exists sp, ids. split; [done|]. split; [done|]. split.
           ++ eapply chosen_same; [exact LS|]. apply ChosenProofs.select_chosen in Esel. rewrite Hids. destruct sel; [done|]. by rewrite P4 by lia.
           ++ eapply output_same; [exact LS|]. exists acts. split; [done|]. destruct (is_softmax (lv_type lv)).
              ** destruct HO as (-> & _). eexists. split; [apply fmax_greatest|done].
              ** by destruct HO as (-> & _).
        -- rewrite list_lookup_insert_ne in Hc' by lia. rewrite list_lookup_insert_ne in Ho' by lia. apply (P3 j w c' out'); [lia|done..].
      * intros j Hj. rewrite list_lookup_insert_ne by lia. apply P4. lia.
      * intros j lv' out' p Hj Hlv' Ho' Hp. destruct (decide (j = length pre)) as [->|Hne].
        -- rewrite list_lookup_insert in Hlv' by (by eapply lookup_lt_Some). injection Hlv' as <-. by eapply QSl.
        -- rewrite list_lookup_insert_ne in Hlv' by done. rewrite list_lookup_insert_ne in Ho' by lia. eapply P5; [|done..]. lia.
      * intros j lv' out' Hj Hlv' Ho' Hsm. destruct (decide (j = length pre)) as [->|Hne].
        -- rewrite list_lookup_insert in Hlv' by (by eapply lookup_lt_Some). injection Hlv' as <-.
           rewrite list_lookup_insert in Ho' by done. injection Ho' as <-. apply QN; [|done].
           replace (Z.to_nat (Z.of_nat (length pre) + 1)) with (S (length pre)) by lia. by apply list_lookup_insert.
        -- rewrite list_lookup_insert_ne in Hlv' by done. rewrite list_lookup_insert_ne in Ho' by lia. eapply P6; [|done..]. lia.
Qed.

(** * The predicted class *)
Lemma indexed_take {A} (xs : list A) pre x : pre ++ [x] `prefix_of` indexed xs ->
  x.1 = Z.of_nat (length pre) /\ xs !! length pre = Some x.2 /\ pre = indexed (take (length pre) xs).
Proof.
  intros [q Hq]. assert (Hl : indexed xs !! length pre = Some x).
  { rewrite Hq, <- (assoc_L (++)). by apply list_lookup_middle. }
  destruct x as [j x]. apply indexed_lookup in Hl as [-> Hx]. split; [done|]. split; [done|].
  apply list_eq. intros k. destruct (decide (k < length pre)%nat) as [Hk|Hk].
  - destruct (lookup_lt_is_Some_2 pre k Hk) as [[jk y] Hy]. rewrite Hy. symmetry.
    assert (Hl : indexed xs !! k = Some (jk, y)) by (rewrite Hq, <- (assoc_L (++)); by apply lookup_app_l_Some).
    apply indexed_lookup in Hl as [-> Hl]. apply indexed_lookup. split; [done|]. by rewrite lookup_take.
  - rewrite !lookup_ge_None_2; [done| |lia]. rewrite indexed_length, take_length. lia.
Qed.

Lemma argmax_predicted vs i out mx c :
  (forall p, p ∈ out -> exists d, slot_at vs (iv_index p) i = Some (mkSlot fone (iv_value p) d)) ->
  foldM (ref_argmax vs i) (fzero, 0) (indexed out) = Ok (mx, c) -> predicted out c.
Proof.
  intros HS H.
  set (P := fun (pre : list (Z * Pair)) (st : float64 * Z) =>
    (pre = [] /\ st.2 = 0) \/
    exists k p, sticky_max (map iv_value (take (length pre) out)) k /\ take (length pre) out !! k = Some p /\ iv_index p = st.2 /\ iv_value p = st.1).
  assert (HP : P (indexed out) (mx, c)).
  2:{ destruct HP as [[Hn Hc]|(k & p & Hk & Hp & Hi & Hv)].
      - left. split; [|done]. apply length_zero_iff_nil. rewrite <- indexed_length, Hn. done.
      - right. rewrite indexed_length, firstn_all in Hk, Hp. exists k, p. done. }
  revert H. apply foldM_keep; [by left|].
  intros pre [j p] [m0 c0] [m1 c1] HP Hpre H. apply indexed_take in Hpre as (Hj & Hp & _). cbn [fst snd] in *. subst j.
  unfold ref_argmax in H. binv H as v E1. binv H as s E2.
  assert (Hs : slot_act s = iv_value p).
  { destruct (HS p) as [d Hd]; [by eapply elem_of_list_lookup_2|]. apply sget_Ok in E1 as [_ E1]. apply sget_Ok in E2 as [_ E2].
    unfold slot_at in Hd. rewrite E1 in Hd. cbn in Hd. rewrite E2 in Hd. injection Hd as ->. done. }
  rewrite Hs in H. clear E1 E2 Hs HS. unfold P. rewrite app_length. cbn [length].
  replace (length pre + 1)%nat with (Datatypes.S (length pre)) by lia. rewrite (take_S_r _ _ _ Hp), map_app. cbn [map].
  destruct HP as [[-> Hc0]|(k & q & Hk & Hq & Hi0 & Hv0)]; cbn [fst snd] in *; [subst c0|subst c0 m0].
  - cbn [length fst snd] in *. rewrite (proj2 (Z.eqb_eq _ _) eq_refl), orb_true_r in H. injection H as <- <-. right. exists 0%nat, p.
    cbn [take map app]. split; [apply sticky_one|done].
  - pose proof (lookup_lt_Some _ _ _ Hp) as Hlp.
    assert (Hl : length (take (length pre) out) = length pre) by (rewrite take_length; lia).
    assert (Hne : Z.of_nat (length pre) =? 0 = false).
    { apply Z.eqb_neq. apply lookup_lt_Some in Hq. lia. }
    rewrite Hne, orb_false_r in H.
    assert (Hv : map iv_value (take (length pre) out) !! k = Some (iv_value q)) by (by rewrite list_lookup_fmap, Hq).
    pose proof (sticky_snoc _ _ _ (iv_value p) Hk Hv) as Hs. rewrite map_length, Hl in Hs.
    right. cbn [fst snd]. destruct (fltb (iv_value q) (iv_value p)); injection H as <- <-.
    + exists (length pre), p. split; [done|]. split; [|done]. by apply list_lookup_middle.
    + exists k, q. split; [done|]. split; [|done]. by apply lookup_app_l_Some.
Qed.

Lemma predict_one_spec E I num sps nv0 nv i ex c nv' :
  net_same_but I nv0 nv -> num = Z.of_nat (length (nv_layers nv0)) ->
  ref_predict_one E num sps nv i ex = Ok (c, nv') ->
  exists outs out, inference E (nv_layers nv0) sps (length (nv_layers nv0)) [] (features ex) outs /\
    last outs = Some out /\ predicted out c.
Proof.
  intros NS -> H. unfold ref_predict_one in H. binv H as [[anpl ins] nv1] E0. binv H as out E1. binv H as lv E2. binv H as [mx cl] E3.
  injection H as <- <-. eapply forward_passed in E0 as [P1 P2 P3 P4 P5]; [|done..].
  apply sget_Ok in E1 as [_ E1]. rewrite Nat2Z.id in E1. apply sget_Ok in E2 as [E20 E2].
  exists anpl, out. split; [|split].
  - split; [done|]. split; [done|]. intros j w c o Hw Hc Ho. destruct (P3 j w c o) as (sp & ids & _ & Hsp & HC & HO); [by apply lookup_lt_Some in Hw|done..|].
    exists sp, ids. split; [|done]. by replace (length (nv_layers nv0) + j)%nat with (Z.to_nat (Z.of_nat (length (nv_layers nv0)) + Z.of_nat j)) by lia.
  - by rewrite last_lookup, P1.
  - eapply argmax_predicted; [|exact E3]. intros p Hp.
    apply (P5 (length (nv_layers nv0) - 1)%nat lv out); [lia| | |done].
    + by replace (length (nv_layers nv0) - 1)%nat with (Z.to_nat (Z.of_nat (length (nv_layers nv0)) - 1)) by lia.
    + by replace (S (length (nv_layers nv0) - 1)) with (length (nv_layers nv0)) by lia.
Qed.

Lemma contains_spec' l x : intSliceContains l x = bool_decide (x ∈ l).
Proof.
  unfold intSliceContains. apply eq_bool_prop_intro. rewrite bool_decide_spec, Is_true_true, existsb_exists.
  setoid_rewrite elem_of_list_In. split; [intros (y & Hy & ->%Z.eqb_eq); done|intros H; exists x; split; [done|apply Z.eqb_refl]].
Qed.

Lemma predict_spec E num sps nv exs cnt nv' :
  num = Z.of_nat (length (nv_layers nv)) -> ref_predict E num sps nv exs = Ok (cnt, nv') ->
  net_same_but (fun i => 0 <= i < Z.of_nat (length exs)) nv nv' /\
  exists classes, cnt = hits exs classes /\
    Forall2 (fun ex c => exists outs out, inference E (nv_layers nv) sps (length (nv_layers nv)) [] (features ex) outs /\
      last outs = Some out /\ predicted out c) exs classes.
Proof.
  intros Hn H. unfold ref_predict in H. binv H as lv E0. clear E0 lv.
  set (P := fun (pre : list (Z * Example_)) (st : Z * NetView) =>
    net_same_but (fun i => 0 <= i < Z.of_nat (length exs)) nv st.2 /\
    exists classes, st.1 = hits (map snd pre) classes /\
    Forall2 (fun ex c => exists outs out, inference E (nv_layers nv) sps (length (nv_layers nv)) [] (features ex) outs /\
      last outs = Some out /\ predicted out c) (map snd pre) classes).
  assert (HP : P (indexed exs) (cnt, nv')).
  2:{ unfold P in HP. replace (map snd (indexed exs)) with exs in HP; [done|].
      apply list_eq. intros k. rewrite list_lookup_fmap. destruct (indexed exs !! k) as [[j x]|] eqn:Ek; cbn.
      - by apply indexed_lookup in Ek as [_ ->].
      - apply lookup_ge_None. apply lookup_ge_None in Ek. by rewrite indexed_length in Ek. }
  revert H. apply foldM_keep.
  - split; [apply net_same_refl|]. exists []. split; [done|constructor].
  - intros pre [i ex] [c0 nv0] [c1 nv1] [NS (cls & Hc & HF)] Hpre H. apply indexed_take in Hpre as (Hj & Hx & _). cbn [fst snd] in *. subst i.
    binv H as [c nv2] E1. injection H as <- <-. split; cbn [fst snd].
    + eapply net_same_trans; [exact NS|]. eapply net_same_weaken; [|by eapply predict_one_same]. intros k <-. apply lookup_lt_Some in Hx. lia.
    + exists (cls ++ [c]). rewrite map_app. cbn [map snd]. split.
      * rewrite contains_spec'. unfold hits. rewrite zip_with_app by (by eapply Forall2_length). rewrite filter_app, app_length. cbn [zip_with].
        rewrite filter_cons. cbn [fst snd]. rewrite Hc. unfold hits. case_bool_decide; [rewrite decide_True by done|rewrite decide_False by done]; cbn; lia.
      * apply Forall2_app; [done|]. constructor; [|constructor]. by eapply predict_one_spec.
Qed.

(** * Softmax *)
Lemma softmax_query E c arr lls nv j ll lv anpl li i label sp m in_ anpl' lp' m' :
  lays_ok lls -> net_rep m c arr lls nv -> lls !! j = Some ll -> nv_layers nv !! j = Some lv ->
  is_softmax (lv_type lv) = true ->
  layer_Query E c (ll_ptr ll) anpl li i label sp m = Ok ((in_, anpl', lp'), m') ->
  let ids := active_of anpl' li in
  exists cur acts mx lv' g,
    lp' = ll_ptr ll /\ net_rep m' c arr lls (mkNV (<[j := lv']> (nv_layers nv)) g (nv_seeds nv)) /\
    sget anpl li = Ok cur /\ activations lv cur ids acts /\ greatest acts mx /\
    anpl' = <[Z.to_nat (li + 1) := zip_with mkPair ids (exps E acts mx)]> anpl /\
    lv_norm lv' !! Z.to_nat i = Some (fold_left fadd (exps E acts mx) fzero) /\
    (forall k id e, ids !! k = Some id -> exps E acts mx !! k = Some e ->
       exists d, slot_at (lv_nodes lv') id i = Some (mkSlot fone e d)) /\
    (forall k, Z.of_nat k ∉ ids -> lv_nodes lv' !! k = lv_nodes lv !! k) /\
    layer_same_but (eq i) lv lv'.
Proof.
  intros LO R Hll Hlv Hs H. pose proof (query_ref E c arr lls LO j ll Hll m nv lv anpl li i label sp R Hlv) as RF.
  eapply refines_Ok in RF as ([[[in1 an1] lv1] g1] & RQ & [Ha R']); [|exact H]. cbn [fst snd] in *. injection Ha as -> -> ->.
  pose proof (query_same _ _ _ _ _ _ _ _ _ _ _ _ RQ) as [QS _].
  pose proof (fun out p => query_slots _ _ _ _ _ _ _ _ _ _ _ _ out p RQ) as QSl.
  apply query_full in RQ as (cur & sel & ids & acts & out & Ec & _ & Hli & HL & _ & HA & -> & HO).
  rewrite Hs in HO. cbn zeta in HO. destruct HO as (-> & Hi & HN & HS).
  assert (HLe : length ids = length (exps E acts (fmax_from fzero acts))) by (rewrite exps_length; by eapply Forall2_length).
  assert (Hids : active_of (<[Z.to_nat (li + 1) := zip_with mkPair ids (exps E acts (fmax_from fzero acts))]> anpl) li = ids).
  { unfold active_of. rewrite list_lookup_insert by done. cbn [default from_option id]. by apply zip_index. }
  cbn zeta. rewrite Hids. exists cur, acts, (fmax_from fzero acts), lv1, g1. split_and!; try done.
  - apply fmax_greatest.
  - rewrite HN. apply list_lookup_insert. lia.
  - intros k id e Hid He. apply (QSl (zip_with mkPair ids (exps E acts (fmax_from fzero acts))) (mkPair id e)).
    + by apply list_lookup_insert.
    + apply elem_of_list_lookup. exists k. apply lookup_zip_with_Some. eauto 10.
  - intros k Hk. destruct HS as [HL' HS]. destruct (lv_nodes lv !! k) as [v0|] eqn:E0.
    + destruct (lookup_lt_is_Some_2 (lv_nodes lv1) k) as [v Ev]; [rewrite HL'; by apply lookup_lt_Some in E0|].
      destruct (HS _ _ _ E0 Ev) as (_ & _ & S3). by rewrite Ev, S3.
    + apply lookup_ge_None. apply lookup_ge_None in E0. lia.
Qed.

(** * Histories and prediction in memory *)
Lemma new_calls_live E c num sizes types batch lr inputDim k l rp sparsity m n m' os n' m'' :
  e_LoadWeight E = false -> dims_ok E num sizes batch inputDim ->
  network_New E c num sizes types batch lr inputDim k l rp sparsity m = Ok (n, m') ->
  call_ops E c n os m' = Ok (n', m'') ->
  n' = n /\ exists nv, live E m'' c n nv.
Proof.
  intros HL HD HN HO. assert (R : exists nv, live E m' c n nv).
  { destruct (refines_Ok _ _ _ n m' (network_New_ref _ _ _ _ _ _ _ _ _ _ _ _ _ HL HD) HN) as (nv & _ & _ & L & _). by exists nv. }
  destruct R as [nv L].
  pose proof (live_calls E c n os m' nv L) as R2. destruct (refines_Ok _ _ _ _ _ R2 HO) as (nv' & _ & Hn & L'). split; [done|by exists nv'].
Qed.
Lemma predict_count E m c n nv exs cnt n' m' :
  live E m c n nv -> network_PredictClass E c n exs m = Ok ((cnt, n'), m') ->
  exists classes, cnt = hits exs classes /\ 0 <= cnt <= Z.of_nat (length exs) /\
    Forall2 (fun ex cl => exists outs out,
      inference E (nv_layers nv) (nw_sparsity n) (length (nv_layers nv)) [] (features ex) outs /\
      last outs = Some out /\ predicted out cl) exs classes.
Proof.
  intros L H. pose proof (live_predict E m c n nv exs L) as R. eapply refines_Ok in R as ([cnt' nv'] & RP & [Ha _]); [|exact H].
  injection Ha as -> ->. destruct L as (_ & Hn & _). apply predict_spec in RP as (_ & cls & -> & HF); [|done].
  exists cls. split; [done|]. split; [|done]. unfold hits. split; [lia|].
  assert (HT : forall (P : Example_ * Z -> Prop) `{!forall x, Decision (P x)} l, (length (filter P l) <= length l)%nat).
  { intros P ? l. induction l as [|x l IH]; [done|]. rewrite filter_cons. destruct (decide (P x)); cbn [length]; lia. }
  etrans; [apply Nat2Z.inj_le, HT|]. rewrite zip_with_length. lia.
Qed.
Lemma predict_unchanged E m c n nv exs cnt n' m' :
  live E m c n nv -> network_PredictClass E c n exs m = Ok ((cnt, n'), m') ->
  n' = n /\ exists nv', live E m' c n nv' /\ net_same_but (fun i => 0 <= i < Z.of_nat (length exs)) nv nv'.
Proof.
  intros L H. pose proof (live_predict E m c n nv exs L) as R. eapply refines_Ok in R as ([cnt' nv'] & RP & [Ha L']); [|exact H].
  injection Ha as -> ->. destruct L as (_ & Hn & _). apply predict_spec in RP as (NS & _); [|done]. eauto.
Qed.
