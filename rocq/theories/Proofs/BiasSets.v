(** Every set of features fills a window of a random order equally often. *)
From Coq Require Import Factorial.
From stdpp Require Import sorting.
From Verif.Spec Require Import BiasSpec.
From Verif.Proofs Require Import BiasCount BiasOrders.
From Coq Require Import Lia.
Local Open Scope Z_scope.

(** * Subsets *)
Lemma combos_sub k : forall l s, s ∈ combos k l -> s `sublist_of` l /\ length s = k.
Proof.
  intros l. revert k. induction l as [|x l IH]; intros [|k] s H; cbn in H.
  - apply elem_of_list_singleton in H as ->. split; [apply sublist_nil_l|done].
  - by apply elem_of_nil in H.
  - apply elem_of_list_singleton in H as ->. split; [apply sublist_nil_l|done].
  - apply elem_of_app in H as [H|H].
    + apply elem_of_list_fmap in H as (s' & -> & H). destruct (IH _ _ H) as [H1 H2]. split; [by apply sublist_skip|cbn; lia].
    + destruct (IH _ _ H) as [H1 H2]. split; [by apply sublist_cons|done].
Qed.
Lemma sub_combos s l : s `sublist_of` l -> s ∈ combos (length s) l.
Proof.
  induction 1 as [|x s l H IH|x s l H IH]; [left| |].
  - cbn. apply elem_of_app. left. by apply elem_of_list_fmap_1.
  - destruct s as [|y s]; [left|]. cbn. apply elem_of_app. by right.
Qed.
Lemma combos_NoDup k l : NoDup l -> NoDup (combos k l).
Proof.
  revert k. induction l as [|x l IH]; intros [|k] ND; cbn; [apply NoDup_singleton|apply NoDup_nil_2|apply NoDup_singleton|].
  apply NoDup_cons in ND as [N1 N2]. apply NoDup_app. split; [|split].
  - apply (NoDup_fmap_2 (cons x)). by apply IH.
  - intros s Hs Hs'. apply elem_of_list_fmap in Hs as (s' & -> & _). apply combos_sub in Hs' as [Hs' _]. apply N1.
    apply sublist_submseteq in Hs'. eapply elem_of_submseteq; [left|exact Hs'].
  - by apply IH.
Qed.
Lemma sorted_sublist (l : list Z) : forall s, StronglySorted Z.lt l -> StronglySorted Z.lt s -> (forall x, x ∈ s -> x ∈ l) -> s `sublist_of` l.
Proof.
  induction l as [|y l IH]; intros s SL SS HI.
  - destruct s as [|x s]; [constructor|]. specialize (HI x ltac:(left)). by apply elem_of_nil in HI.
  - destruct s as [|x s]; [apply sublist_nil_l|]. apply StronglySorted_inv in SL as [SL FL]. apply StronglySorted_inv in SS as [SS FS]. rewrite Forall_forall in FL, FS.
    assert (HX := HI x ltac:(left)). apply elem_of_cons in HX as [->|HX].
    + apply sublist_skip. apply IH; [done..|]. intros z Hz. specialize (HI z ltac:(by right)). apply elem_of_cons in HI as [->|HI]; [|done]. specialize (FS y Hz). lia.
    + apply sublist_cons. apply IH; [done|by constructor; [|rewrite Forall_forall]|]. intros z Hz. specialize (HI z Hz). apply elem_of_cons in HI as [->|HI]; [|done].
      specialize (FL x HX). apply elem_of_cons in Hz as [->|Hz]; [lia|]. specialize (FS y Hz). lia.
Qed.
Lemma seqZ_sorted m k : StronglySorted Z.lt (seqZ m k).
Proof.
  destruct (Z.le_gt_cases 0 k) as [K|K]; [|rewrite seqZ_nil by lia; constructor]. revert m. pattern k. apply natlike_ind; [|intros x X IH m|done].
  - intros m. rewrite seqZ_nil by lia. constructor.
  - rewrite seqZ_cons by lia. rewrite Z.pred_succ. constructor; [apply IH|]. apply Forall_forall. intros y Hy. apply elem_of_seqZ in Hy. lia.
Qed.
Lemma sublist_sorted (s l : list Z) : s `sublist_of` l -> StronglySorted Z.lt l -> StronglySorted Z.lt s.
Proof.
  induction 1 as [|x s l H IH|x s l H IH]; intros SL; [constructor| |].
  - apply StronglySorted_inv in SL as [SL FL]. constructor; [by apply IH|]. rewrite Forall_forall in *. intros y Hy. apply FL. apply sublist_submseteq in H. by eapply elem_of_submseteq.
  - apply StronglySorted_inv in SL as [SL FL]. by apply IH.
Qed.
(** The set of a list. *)
Definition set_of (w : list Z) : list Z := merge_sort Z.le w.
Lemma set_perm w : set_of w ≡ₚ w.
Proof. apply merge_sort_Permutation. Qed.
Lemma lt_sorted s : StronglySorted Z.le s -> NoDup s -> StronglySorted Z.lt s.
Proof.
  induction 1 as [|x s SS IH F]; intros ND; [constructor|]. apply NoDup_cons in ND as [N1 N2]. constructor; [by apply IH|]. rewrite Forall_forall in *. intros y Hy.
  specialize (F y Hy). destruct (decide (x = y)) as [->|]; [done|lia].
Qed.
Lemma le_sorted s : StronglySorted Z.lt s -> StronglySorted Z.le s.
Proof. induction 1 as [|x s SS IH F]; constructor; [done|]. eapply Forall_impl; [exact F|]. intros y Hy. cbn in Hy. lia. Qed.
Lemma set_sorted w : StronglySorted Z.le (set_of w).
Proof. apply Sorted_StronglySorted; [intros x y z; lia|]. apply Sorted_merge_sort. intros x y. lia. Qed.
Lemma set_eq w s : StronglySorted Z.lt s -> w ≡ₚ s -> set_of w = s.
Proof.
  intros SS P. apply (StronglySorted_unique Z.le); [apply set_sorted|by apply le_sorted|]. by rewrite set_perm.
Qed.
Lemma set_in_combos a k n o : o ≡ₚ seqZ 0 n -> Z.of_nat (a + k) <= n -> set_of (window a k o) ∈ combos k (seqZ 0 n).
Proof.
  intros P L. pose proof (window_length a k n o P L) as LW. rewrite <- LW at 2. rewrite <- (Permutation_length (set_perm (window a k o))) at 1.
  apply sub_combos. apply sorted_sublist; [apply seqZ_sorted| |].
  - apply lt_sorted; [apply set_sorted|]. rewrite set_perm. apply window_NoDup. rewrite P. apply NoDup_seqZ.
  - intros x Hx. rewrite set_perm in Hx. apply window_in in Hx. by rewrite P in Hx.
Qed.

(** * Renaming the features *)
Definition rename (from to : list Z) (x : Z) : Z := default x ('(i, _) ← list_find (eq x) from; to !! i).
Lemma rename_at from to i x y : NoDup from -> from !! i = Some x -> to !! i = Some y -> rename from to x = y.
Proof.
  intros ND H1 H2. unfold rename. destruct (list_find (eq x) from) as [[j z]|] eqn:EF.
  - apply list_find_Some in EF as (Hj & <- & _). assert (j = i) as -> by (eapply NoDup_lookup; eassumption). cbn. by rewrite H2.
  - apply list_find_None in EF. rewrite Forall_forall in EF. exfalso. apply (EF x); [by eapply elem_of_list_lookup_2|done].
Qed.
Lemma rename_map from to : NoDup from -> length from = length to -> map (rename from to) from = to.
Proof.
  intros ND L. apply list_eq. intros i. rewrite list_lookup_fmap. destruct (from !! i) as [x|] eqn:H1; cbn.
  - destruct (lookup_lt_is_Some_2 to i) as [y Hy]; [rewrite <- L; by eapply lookup_lt_Some|]. rewrite Hy. f_equal. by eapply rename_at.
  - symmetry. apply lookup_ge_None. rewrite <- L. by apply lookup_ge_None.
Qed.
Lemma rename_inj from to x y : NoDup from -> NoDup to -> length from = length to -> x ∈ from -> y ∈ from -> rename from to x = rename from to y -> x = y.
Proof.
  intros N1 N2 L Hx Hy E. apply elem_of_list_lookup in Hx as [i Hi], Hy as [j Hj].
  destruct (lookup_lt_is_Some_2 to i) as [a Ha]; [rewrite <- L; by eapply lookup_lt_Some|]. destruct (lookup_lt_is_Some_2 to j) as [b Hb]; [rewrite <- L; by eapply lookup_lt_Some|].
  rewrite (rename_at _ _ _ _ _ N1 Hi Ha), (rename_at _ _ _ _ _ N1 Hj Hb) in E. subst b. assert (i = j) as -> by (eapply NoDup_lookup; eassumption). congruence.
Qed.
Lemma complete s n : s `sublist_of` seqZ 0 n -> exists r, s ++ r ≡ₚ seqZ 0 n.
Proof. intros H. apply sublist_submseteq, submseteq_Permutation in H as [r H]. exists r. by rewrite H. Qed.
Section Sets.
  Context (n : Z) (os : list (list Z)) (a k : nat) (HE : enum n os) (Ha : Z.of_nat (a + k) <= n).
  Lemma sets_le s s' : s ∈ combos k (seqZ 0 n) -> s' ∈ combos k (seqZ 0 n) ->
    (count (fun o => bool_decide (set_of (window a k o) = s)) os <= count (fun o => bool_decide (set_of (window a k o) = s')) os)%nat.
  Proof using HE Ha.
    intros Hs Hs'. destruct HE as [ND HO]. apply combos_sub in Hs as [S1 L1]. apply combos_sub in Hs' as [S2 L2].
    destruct (complete s n S1) as [r Hr]. destruct (complete s' n S2) as [r' Hr'].
    set (from := s ++ r) in *. set (to := s' ++ r') in *. assert (NF : NoDup from) by (rewrite Hr; apply NoDup_seqZ). assert (NT : NoDup to) by (rewrite Hr'; apply NoDup_seqZ).
    assert (LF : length from = length to) by (by rewrite (Permutation_length Hr), (Permutation_length Hr')).
    assert (MS : map (rename from to) s = s').
    { pose proof (rename_map from to NF LF) as M. unfold from at 2 in M. unfold to at 2 in M. rewrite map_app in M. apply app_inj_1 in M as [M _]; [done|]. rewrite map_length. lia. }
    apply (count_le (map (rename from to))); [done| |].
    - intros o Ho HP. apply bool_decide_eq_true in HP. pose proof (proj1 (HO o) Ho) as PO. split.
      + apply HO. rewrite PO, <- Hr at 1. rewrite rename_map by done. exact Hr'.
      + apply bool_decide_eq_true. apply set_eq; [eapply sublist_sorted; [exact S2|apply seqZ_sorted]|].
        unfold window. rewrite skipn_map, firstn_map. fold (window a k o). rewrite <- (set_perm (window a k o)), HP, MS. done.
    - intros o o' Ho Ho' _ _ E. apply HO in Ho, Ho'. apply list_eq_same_length with (n := length o); [by rewrite (Permutation_length Ho), (Permutation_length Ho')|done|].
      intros i x y _ Hx Hy. apply (rename_inj from to x y NF NT LF).
      + rewrite Hr, <- Ho. by eapply elem_of_list_lookup_2.
      + rewrite Hr, <- Ho'. by eapply elem_of_list_lookup_2.
      + assert (E2 : map (rename from to) o !! i = map (rename from to) o' !! i) by (by rewrite E). rewrite !list_lookup_fmap, Hx, Hy in E2. by injection E2.
  Qed.
  Lemma sets_fair (F : list Z -> bool) :
    (count (fun o => F (set_of (window a k o))) os * length (combos k (seqZ 0 n)) = length os * count F (combos k (seqZ 0 n)))%nat.
  Proof using HE Ha.
    destruct (combos k (seqZ 0 n)) as [|s0 ss] eqn:EC.
    - (* no window, no order *)
      assert (E0 : os = []). { destruct os as [|o os']; [done|]. destruct HE as [_ HO]. pose proof (proj1 (HO o) ltac:(left)) as PO.
        pose proof (set_in_combos a k n o PO Ha) as H. rewrite EC in H. by apply elem_of_nil in H. }
      rewrite E0. reflexivity.
    - rewrite <- EC. set (c := count (fun o => bool_decide (set_of (window a k o) = s0)) os).
      destruct (count_by_key (fun o => set_of (window a k o)) (combos k (seqZ 0 n)) os F c) as [-> ->]; [| | |lia].
      + apply combos_NoDup, NoDup_seqZ.
      + intros o Ho. apply set_in_combos; [|done]. by apply HE.
      + intros s Hs. apply Nat.le_antisymm; apply sets_le; (done || rewrite EC; left).
  Qed.
End Sets.
