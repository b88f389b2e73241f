(** The nodes that LayerMode4 adds are a fair sample of the nodes that are not candidates. *)
From Verif.Spec Require Import FillSpec.
From Verif.Proofs Require Import LayerModes BiasCount BiasOrders BiasSets BiasTables BiasProofs.
From stdpp Require Import sorting.
Local Open Scope Z_scope.

Lemma filter_map_iff {A B} (f : A -> B) (P : A -> Prop) (Q : B -> Prop) `{forall x, Decision (P x)} `{forall x, Decision (Q x)} xs :
  (forall x, x ∈ xs -> P x <-> Q (f x)) -> filter Q (map f xs) = map f (filter P xs).
Proof.
  induction xs as [|x xs IH]; intros HPQ; [done|]. cbn [map]. rewrite !filter_cons.
  specialize (IH (fun y Hy => HPQ y (elem_of_list_further _ _ _ Hy))). pose proof (HPQ x (elem_of_list_here _ _)) as HX.
  destruct (decide (P x)); [rewrite decide_True by tauto; cbn [map]; by rewrite IH|rewrite decide_False by tauto; done].
Qed.
Lemma filter_split {A} (P : A -> Prop) `{forall x, Decision (P x)} xs : filter P xs ++ filter (fun x => ~ P x) xs ≡ₚ xs.
Proof.
  induction xs as [|x xs IH]; [done|]. rewrite !filter_cons. destruct (decide (P x)).
  - rewrite decide_False by tauto. cbn. by rewrite IH.
  - rewrite decide_True by done. rewrite <- Permutation_middle. by rewrite IH.
Qed.

Lemma one_sublist (j : Z) l : j ∈ l -> [j] `sublist_of` l.
Proof. intros (l1 & l2 & ->)%elem_of_list_split. apply sublist_inserts_l, sublist_skip, sublist_nil_l. Qed.

Section Fill.
  Context (n : Z) (os : list (list Z)) (HE : every_order n os) (cand : list Z) (k : Z) (start : nat).
  Let ot := others n cand.
  Let ins := filter (fun j => j ∈ cand) (seqZ 0 n).
  Lemma ot_NoDup : NoDup ot. Proof using. apply NoDup_filter, NoDup_seqZ. Qed.
  Lemma ot_sorted : StronglySorted Z.lt ot.
  Proof using.
    unfold ot, others. pose proof (seqZ_sorted 0 n) as HS. induction HS as [|x l HS IH HF]; [constructor|].
    rewrite filter_cons. case_decide; [|done]. constructor; [done|]. apply Forall_forall. intros y Hy.
    apply elem_of_list_filter in Hy as [_ Hy]. rewrite Forall_forall in HF. by apply HF.
  Qed.
  (** Any equally long sublists of the other nodes can be exchanged by a relabelling that leaves the candidates alone. *)
  Lemma relabel s s' : s `sublist_of` ot -> s' `sublist_of` ot -> length s = length s' ->
    exists f : Z -> Z, map f s = s' /\ (forall o, o ∈ os -> map f o ∈ os) /\
      (forall o o', o ∈ os -> o' ∈ os -> map f o = map f o' -> o = o') /\
      (forall o, o ∈ os -> fill cand (map f o) k start = map f (fill cand o k start)) /\
      (forall x y, x ∈ seqZ 0 n -> y ∈ seqZ 0 n -> f x = f y -> x = y).
  Proof using HE.
    intros S1 S2 L. destruct HE as [ND HO].
    pose proof (sublist_submseteq _ _ S1) as M1. apply submseteq_Permutation in M1 as [q Hq].
    pose proof (sublist_submseteq _ _ S2) as M2. apply submseteq_Permutation in M2 as [q' Hq'].
    assert (HA : ins ++ ot ≡ₚ seqZ 0 n) by (apply filter_split).
    set (from := ins ++ s ++ q). set (to := ins ++ s' ++ q').
    assert (Hr : from ≡ₚ seqZ 0 n) by (unfold from; by rewrite <- Hq).
    assert (Hr' : to ≡ₚ seqZ 0 n) by (unfold to; by rewrite <- Hq').
    assert (NF : NoDup from) by (rewrite Hr; apply NoDup_seqZ). assert (NT : NoDup to) by (rewrite Hr'; apply NoDup_seqZ).
    assert (LF : length from = length to) by (by rewrite (Permutation_length Hr), (Permutation_length Hr')).
    pose proof (rename_map from to NF LF) as M. unfold from at 2 in M. unfold to at 2 in M. rewrite !map_app in M.
    apply app_inj_1 in M as [MI M]; [|by rewrite map_length].
    apply app_inj_1 in M as [MS MQ]; [|by rewrite map_length].
    exists (rename from to). split; [done|].
    assert (INJ : forall x y, x ∈ seqZ 0 n -> y ∈ seqZ 0 n -> rename from to x = rename from to y -> x = y).
    { intros x y Hx Hy. apply rename_inj; (done || by rewrite Hr). }
    assert (HC : forall x, x ∈ seqZ 0 n -> x ∉ cand <-> rename from to x ∉ cand).
    { intros x Hx. rewrite <- HA in Hx. apply elem_of_app in Hx as [Hx|Hx].
      - assert (rename from to x ∈ cand); [|apply elem_of_list_filter in Hx as [Hx _]; tauto].
        assert (HI : rename from to x ∈ ins) by (rewrite <- MI; by apply elem_of_list_fmap_1). by apply elem_of_list_filter in HI as [HI _].
      - assert (HI : rename from to x ∈ ot).
        { rewrite Hq', <- MS, <- MQ, <- map_app. apply elem_of_list_fmap_1. by rewrite <- Hq. }
        unfold ot, others in Hx, HI. apply elem_of_list_filter in HI as [HI _]. apply elem_of_list_filter in Hx as [Hx _]. tauto. }
    split_and!.
    - intros o Ho. apply HO in Ho. apply HO. rewrite Ho, <- Hr at 1. rewrite rename_map by done. exact Hr'.
    - intros o o' Ho Ho' EQ. apply HO in Ho, Ho'.
      apply list_eq_same_length with (n := length o); [by rewrite (Permutation_length Ho), (Permutation_length Ho')|done|].
      intros i x y _ Hx Hy. apply INJ.
      + rewrite <- Ho. by eapply elem_of_list_lookup_2.
      + rewrite <- Ho'. by eapply elem_of_list_lookup_2.
      + assert (E2 : map (rename from to) o !! i = map (rename from to) o' !! i) by (by rewrite EQ).
        rewrite !list_lookup_fmap, Hx, Hy in E2. by injection E2.
    - intros o Ho. apply HO in Ho. unfold fill. rewrite skipn_map, firstn_map, <- map_app.
      erewrite filter_map_iff; [apply firstn_map|]. intros x Hx. apply HC. rewrite <- Ho.
      rewrite <- (take_drop start o). rewrite elem_of_app in *. tauto.
    - done.
  Qed.
  Let r := Nat.min (Z.to_nat (1000 - k)) (length ot).
  Lemma fill_others o : o ∈ os -> filter (fun j => j ∉ cand) (drop start o ++ take start o) ≡ₚ ot.
  Proof using HE. intros Ho. apply HE in Ho. unfold ot, others. rewrite <- Ho, Permutation_app_comm, take_drop. done. Qed.
  Lemma fill_length o : o ∈ os -> length (fill cand o k start) = r.
  Proof using HE. intros Ho. unfold fill. rewrite take_length, (fill_others o Ho). done. Qed.
  Lemma fill_NoDup o : o ∈ os -> NoDup (fill cand o k start).
  Proof using HE. intros Ho. pose proof ot_NoDup as H. rewrite <- (fill_others o Ho) in H.
    rewrite <- (take_drop (Z.to_nat (1000 - k)) (filter _ _)) in H. by apply NoDup_app in H as [H _]. Qed.
  Lemma fill_in o j : o ∈ os -> j ∈ fill cand o k start -> j ∈ ot.
  Proof using HE. intros Ho Hj. rewrite <- (fill_others o Ho). apply elem_of_take in Hj as (i & Hi & _). by eapply elem_of_list_lookup_2. Qed.
  Lemma fill_set o : o ∈ os -> set_of (fill cand o k start) ∈ combos r ot.
  Proof using HE.
    intros Ho. rewrite <- (fill_length o Ho), <- (Permutation_length (set_perm (fill cand o k start))). apply sub_combos, sorted_sublist.
    - apply ot_sorted.
    - apply lt_sorted; [apply set_sorted|]. rewrite set_perm. by apply fill_NoDup.
    - intros x Hx. rewrite set_perm in Hx. by eapply fill_in.
  Qed.
  Lemma fill_le s s' : s ∈ combos r ot -> s' ∈ combos r ot ->
    (count (fun o => bool_decide (set_of (fill cand o k start) = s)) os <= count (fun o => bool_decide (set_of (fill cand o k start) = s')) os)%nat.
  Proof using HE.
    intros Hs Hs'. apply combos_sub in Hs as [S1 L1]. apply combos_sub in Hs' as [S2 L2].
    destruct (relabel s s' S1 S2 ltac:(lia)) as (f & MS & HF & INJ & HX & _). apply (count_le (map f)); [apply HE| |by auto].
    intros o Ho HP. apply bool_decide_eq_true in HP. split; [by apply HF|]. apply bool_decide_eq_true.
    apply set_eq; [eapply sublist_sorted; [exact S2|apply ot_sorted]|].
    rewrite HX by done. rewrite <- (set_perm (fill cand o k start)), HP, MS. done.
  Qed.
  Lemma fill_fair s : s ∈ combos r ot ->
    (count (fun o => bool_decide (set_of (fill cand o k start) = s)) os * length (combos r ot) = length os)%nat.
  Proof using HE.
    intros Hs. rewrite (count_group (fun o => set_of (fill cand o k start)) (combos r ot) os).
    - symmetry. apply nsum_const. intros s' Hs'. apply Nat.le_antisymm; by apply fill_le.
    - apply combos_NoDup, ot_NoDup.
    - apply fill_set.
  Qed.
  (** Every other node is added equally often. *)
  Lemma node_le j j' : j ∈ ot -> j' ∈ ot ->
    (count (fun o => bool_decide (j ∈ fill cand o k start)) os <= count (fun o => bool_decide (j' ∈ fill cand o k start)) os)%nat.
  Proof using HE.
    intros Hj Hj'. destruct (relabel [j] [j']) as (f & MS & HF & INJ & HX & _); [by apply one_sublist..|done|].
    injection MS as <-. apply (count_le (map f)); [apply HE| |by auto].
    intros o Ho HP. apply bool_decide_eq_true in HP. split; [by apply HF|]. apply bool_decide_eq_true.
    rewrite HX by done. by apply elem_of_list_fmap_1.
  Qed.
  Lemma count_nodes (xs : list (list Z)) : (forall o, o ∈ xs -> o ∈ os) ->
    nsum (map (fun j => count (fun o => bool_decide (j ∈ fill cand o k start)) xs) ot) = (r * length xs)%nat.
  Proof using HE.
    induction xs as [|o xs IH]; intros HI; [rewrite nsum_zero by done; cbn; lia|].
    assert (E : map (fun j => count (fun o0 => bool_decide (j ∈ fill cand o0 k start)) (o :: xs)) ot =
      map (fun j => (if decide (j ∈ fill cand o k start) then 1 else 0) + count (fun o0 => bool_decide (j ∈ fill cand o0 k start)) xs)%nat ot).
    { apply map_ext. intros j. unfold count. rewrite filter_cons. destruct (decide (j ∈ fill cand o k start)) as [E|E].
      - rewrite decide_True by (by apply bool_decide_eq_true). reflexivity.
      - rewrite decide_False by (rewrite bool_decide_eq_true; done). reflexivity. }
    rewrite E, nsum_plus, IH by (intros; apply HI; by right). cbn [length].
    assert (Ho : o ∈ os) by (apply HI; left).
    enough (nsum (map (fun j => if decide (j ∈ fill cand o k start) then 1%nat else 0%nat) ot) = r) by lia.
    rewrite <- (fill_length o Ho). transitivity (length (filter (fun j => j ∈ fill cand o k start) ot)).
    - clear. induction ot as [|x l IH]; [done|]. cbn [map nsum fold_right]. rewrite filter_cons. fold (nsum (map (fun j => if decide (j ∈ fill cand o k start) then 1%nat else 0%nat) l)).
      rewrite IH. destruct (decide _); done.
    - apply Permutation_length, NoDup_Permutation; [apply NoDup_filter, ot_NoDup|by apply fill_NoDup|].
      intros x. rewrite elem_of_list_filter. split; [tauto|]. intros Hx. split; [done|]. by eapply fill_in.
  Qed.
  Lemma node_fair j : j ∈ ot ->
    (count (fun o => bool_decide (j ∈ fill cand o k start)) os * length ot = r * length os)%nat.
  Proof using HE.
    intros Hj. rewrite <- (count_nodes os) by done. symmetry. apply nsum_const. intros j' Hj'. apply Nat.le_antisymm; by apply node_le.
  Qed.
End Fill.

Lemma at_order m lp la ns rn t o : layer_at m lp la ns rn t -> layer_at (with_order m la o) lp la ns o t.
Proof.
  intros [H1 H2 H3 H4]. constructor; cbn; try done. apply list_lookup_insert. by eapply lookup_lt_Some.
Qed.
Lemma sorted_filter (P : Z -> Prop) `{forall x, Decision (P x)} l : StronglySorted Z.lt l -> StronglySorted Z.lt (filter P l).
Proof.
  intros HS. induction HS as [|x l HS IH HF]; [constructor|].
  rewrite filter_cons. case_decide; [|done]. constructor; [done|]. apply Forall_forall. intros y Hy.
  apply elem_of_list_filter in Hy as [_ Hy]. rewrite Forall_forall in HF. by apply HF.
Qed.
Lemma lt_NoDup s : StronglySorted Z.lt s -> NoDup s.
Proof. intros HS. induction HS as [|x l HS IH HF]; constructor; [|done]. intros Hx. rewrite Forall_forall in HF. specialize (HF _ Hx). lia. Qed.

Section Query.
  Context E cowId lp anpl li inputId label sp m la ns rn t cur retrieved os
    (AT : layer_at m lp la ns rn t) (HM : e_Mode E = LayerMode4) (Hsp : feqb sp fone = false) (HL : 0 <= l_l la)
    (Hcur : sget anpl li = Ok cur) (Hret : found E (l_hashers la) t cur retrieved) (HND : NoDup label)
    (HO : every_order (Z.of_nat (length ns)) os)
    (HR : forall o, o ∈ os -> exists r, layer_Query E cowId lp anpl li inputId label sp (with_order m la o) = Ok r).
  Let N := Z.of_nat (length ns).
  Let cand := candidates (is_softmax (l_type la)) label retrieved.
  Let go o := added cand li (layer_Query E cowId lp anpl li inputId label sp (with_order m la o)).
  Let start := Z.to_nat (rstream (m_rng m) (rpos (m_rng m)) mod N).
  Lemma added_fill o : o ∈ os -> go o = Some (set_of (fill cand o (distinct cand) start)).
  Proof using All.
    intros Ho. unfold go. destruct (HR o Ho) as [[[[in_ anpl'] l'] m'] EQ]. rewrite EQ. cbn [added]. f_equal.
    pose proof (proj1 (proj2 HO o) Ho) as PO.
    destruct (query_mode4_nodup _ _ _ _ _ _ _ _ _ _ _ _ _ _ _ _ _ _ _ (at_order _ _ _ _ _ _ o AT) HM Hsp PO HL Hcur Hret HND EQ)
      as (HS & HB & HC & _ & Hin & st & Hst & _ & HF).
    fold N cand in Hst, HF, Hin, HC, HS, HB. cbn in Hst. fold start in Hst. subst st in_.
    symmetry. apply set_eq; [by apply sorted_filter|]. apply NoDup_Permutation.
    - by apply (fill_NoDup N os).
    - apply lt_NoDup. by apply sorted_filter.
    - intros x. rewrite elem_of_list_filter, HF. split; [|tauto]. intros Hx. split; [|tauto].
      pose proof (fill_in N os HO cand _ _ o x Ho Hx) as H2. unfold others in H2. by apply elem_of_list_filter in H2 as [H2 _].
  Qed.
  Lemma added_fair s : s ∈ combos (missing N cand) (others N cand) ->
    (length (filter (fun o => go o = Some s) os) * length (combos (missing N cand) (others N cand)) = length os)%nat.
  Proof using All.
    intros Hs. rewrite <- (fill_fair N os HO cand (distinct cand) start s Hs). f_equal. rewrite filter_count. apply count_ext.
    intros o Ho. rewrite (added_fill o Ho). apply bool_decide_ext. split; [by intros [= ->]|by intros ->].
  Qed.
  Lemma added_node j : j ∈ others N cand ->
    (length (filter (fun o => j ∈ default [] (go o)) os) * length (others N cand) = missing N cand * length os)%nat.
  Proof using All.
    intros Hj. unfold missing. rewrite <- (node_fair N os HO cand (distinct cand) start j Hj). f_equal. rewrite filter_count. apply count_ext.
    intros o Ho. apply bool_decide_ext. rewrite (added_fill o Ho). cbn [default]. by rewrite set_perm.
  Qed.
End Query.

(** There is such a list of all the orders: the ones the random choices give. *)
Lemma every_order_exists n : 0 < n -> exists os, every_order n os.
Proof.
  intros Hn. exists (map (order_of n (mkRng (fun _ => 0) 0) 0) (all_choices (Z.to_nat n))).
  by apply orders_enum.
Qed.
