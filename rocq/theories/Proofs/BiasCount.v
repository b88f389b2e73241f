(** Counting orders of a list. *)
From Coq Require Import Factorial.
From stdpp Require Import sorting.
From Verif.Spec Require Import BiasSpec.
From Verif.Proofs Require Import ShuffleProofs.
From Coq Require Import Lia.
Local Open Scope Z_scope.

(** * The choices *)
Lemma in_all_choices n : forall ds, ds ∈ all_choices n <-> choices n ds.
Proof.
  induction n as [|[|n] IH]; intros ds.
  - cbn. rewrite elem_of_list_singleton. split; [intros ->; split; [done|]; intros k d; by rewrite lookup_nil|]. intros [H _]. by destruct ds.
  - cbn. rewrite elem_of_list_singleton. split; [intros ->; split; [done|]; intros k d; by rewrite lookup_nil|]. intros [H _]. by destruct ds.
  - change (all_choices (S (S n))) with (flat_map (fun d => map (cons d) (all_choices (S n))) (seqZ 0 (Z.of_nat (S (S n))))).
    rewrite elem_of_list_In, in_flat_map. split.
    + intros (d & Hd & Hds). apply elem_of_list_In, elem_of_seqZ in Hd. apply in_map_iff in Hds as (ds' & <- & Hds').
      apply elem_of_list_In, IH in Hds' as [L H]. split; [cbn in *; lia|]. intros [|k] x Hx; [injection Hx as <-; lia|]. specialize (H k x Hx). lia.
    + intros [L H]. destruct ds as [|d ds]; [done|]. exists d. split; [apply elem_of_list_In, elem_of_seqZ; specialize (H 0%nat d eq_refl); lia|].
      apply in_map. apply elem_of_list_In, IH. split; [cbn in *; lia|]. intros k x Hx. specialize (H (S k) x Hx). lia.
Qed.
Lemma all_choices_NoDup n : NoDup (all_choices n).
Proof.
  induction n as [|[|n] IH]; [apply NoDup_singleton..|].
  change (all_choices (S (S n))) with (flat_map (fun d => map (cons d) (all_choices (S n))) (seqZ 0 (Z.of_nat (S (S n))))).
  generalize (NoDup_seqZ 0 (Z.of_nat (S (S n)))). generalize (seqZ 0 (Z.of_nat (S (S n)))). intros l. induction l as [|d l IHl]; intros ND; [apply NoDup_nil_2|].
  apply NoDup_cons in ND as [N1 N2]. cbn [flat_map]. apply NoDup_app. split; [|split; [|by apply IHl]].
  - apply (NoDup_fmap_2 (cons d)). exact IH.
  - intros x Hx Hy. apply elem_of_list_In, in_map_iff in Hx as (a & <- & _). apply elem_of_list_In, in_flat_map in Hy as (d' & Hd' & Hy).
    apply in_map_iff in Hy as (a' & E & _). injection E as -> _. apply N1. by apply elem_of_list_In.
Qed.
Lemma all_choices_length n : length (all_choices n) = fact n.
Proof.
  induction n as [|[|n] IH]; [reflexivity..|].
  change (all_choices (S (S n))) with (flat_map (fun d => map (cons d) (all_choices (S n))) (seqZ 0 (Z.of_nat (S (S n))))).
  change (fact (S (S n))) with (S (S n) * fact (S n))%nat. rewrite <- IH.
  assert (Q : forall l : list Z, length (flat_map (fun d => map (cons d) (all_choices (S n))) l) = (length l * length (all_choices (S n)))%nat).
  { intros l. induction l as [|d l IHl]; [reflexivity|]. cbn [flat_map length]. rewrite app_length, map_length, IHl. lia. }
  rewrite Q, seqZ_length. f_equal. lia.
Qed.

(** * Counting *)
Definition count {A} (P : A -> bool) (os : list A) : nat := length (filter (fun o => P o = true) os).
Lemma count_le {A} (f : A -> A) (P Q : A -> bool) os : NoDup os ->
  (forall o, o ∈ os -> P o = true -> f o ∈ os /\ Q (f o) = true) ->
  (forall o o', o ∈ os -> o' ∈ os -> P o = true -> P o' = true -> f o = f o' -> o = o') -> (count P os <= count Q os)%nat.
Proof.
  intros ND H I. unfold count. rewrite <- (map_length f). apply submseteq_length. apply NoDup_submseteq.
  - apply NoDup_fmap_2_strong; [|by apply NoDup_filter]. intros x y Hx Hy E. apply elem_of_list_filter in Hx as [Px Hx]. apply elem_of_list_filter in Hy as [Py Hy]. by apply I.
  - intros y Hy. apply elem_of_list_fmap in Hy as (x & -> & Hx). apply elem_of_list_filter in Hx as [Px Hx]. destruct (H x Hx Px). by apply elem_of_list_filter.
Qed.
Lemma count_map {A B} (f : A -> B) (P : B -> bool) xs : count P (map f xs) = count (fun x => P (f x)) xs.
Proof. unfold count. induction xs as [|x xs IH]; [reflexivity|]. cbn [map]. rewrite !filter_cons. destruct (decide (P (f x) = true)); [cbn; by rewrite IH|done]. Qed.
Lemma count_ext {A} (P Q : A -> bool) xs : (forall x, x ∈ xs -> P x = Q x) -> count P xs = count Q xs.
Proof.
  unfold count. induction xs as [|x xs IH]; intros H; [reflexivity|]. rewrite !filter_cons. rewrite (H x) by left.
  assert (IH' := IH ltac:(intros y Hy; apply H; by right)). destruct (decide (Q x = true)); cbn; by rewrite IH'.
Qed.
Lemma count_true {A} (xs : list A) : count (fun _ => true) xs = length xs.
Proof. unfold count. induction xs as [|x xs IH]; [reflexivity|]. rewrite filter_cons, decide_True by done. cbn. by rewrite IH. Qed.
(** Grouping by a key. *)
Definition nsum (xs : list nat) : nat := fold_right Nat.add 0%nat xs.
Lemma nsum_const {A} (f : A -> nat) c xs : (forall x, x ∈ xs -> f x = c) -> nsum (map f xs) = (c * length xs)%nat.
Proof. induction xs as [|x xs IH]; intros H; [cbn; lia|]. cbn [map nsum fold_right length]. fold (nsum (map f xs)). rewrite IH by (intros y Hy; apply H; by right). rewrite (H x) by left. lia. Qed.
Lemma nsum_plus {A} (f g : A -> nat) xs : nsum (map (fun x => f x + g x)%nat xs) = (nsum (map f xs) + nsum (map g xs))%nat.
Proof. induction xs as [|x xs IH]; [reflexivity|]. cbn [map nsum fold_right]. fold (nsum (map f xs)) (nsum (map g xs)) (nsum (map (fun x => f x + g x)%nat xs)). lia. Qed.
Lemma nsum_zero {A} (f : A -> nat) xs : (forall x, x ∈ xs -> f x = 0%nat) -> nsum (map f xs) = 0%nat.
Proof. intros H. rewrite (nsum_const f 0 xs H). lia. Qed.
Lemma nsum_one `{EqDecision K} (ks : list K) k0 : NoDup ks -> k0 ∈ ks -> nsum (map (fun k => if decide (k0 = k) then 1%nat else 0%nat) ks) = 1%nat.
Proof.
  induction ks as [|k ks IH]; intros ND Hin; [by apply elem_of_nil in Hin|]. apply NoDup_cons in ND as [N1 N2]. cbn [map nsum fold_right]. fold (nsum (map (fun k => if decide (k0 = k) then 1%nat else 0%nat) ks)).
  destruct decide as [->|NE]; [rewrite nsum_zero; [done|]; intros x Hx; rewrite decide_False; [done|]; by intros ->|].
  rewrite IH; [done|done|]. apply elem_of_cons in Hin as [->|]; [done|assumption].
Qed.
Lemma count_group `{EqDecision K} {A} (key : A -> K) (ks : list K) os : NoDup ks -> (forall o, o ∈ os -> key o ∈ ks) ->
  length os = nsum (map (fun k => count (fun o => bool_decide (key o = k)) os) ks).
Proof.
  intros ND. induction os as [|o os IH]; intros H; [symmetry; by apply nsum_zero|].
  cbn [length]. rewrite IH by (intros x Hx; apply H; by right).
  assert (E : map (fun k => count (fun o0 => bool_decide (key o0 = k)) (o :: os)) ks =
              map (fun k => (if decide (key o = k) then 1 else 0) + count (fun o0 => bool_decide (key o0 = k)) os)%nat ks).
  { apply map_ext. intros k. unfold count. rewrite filter_cons. destruct (decide (key o = k)) as [E|E].
    - rewrite decide_True by (by apply bool_decide_eq_true). reflexivity.
    - rewrite decide_False by (rewrite bool_decide_eq_true; done). reflexivity. }
  rewrite E, nsum_plus, nsum_one by (done || apply H; left). lia.
Qed.
Lemma count_filter {A} (P Q : A -> bool) os : count P (filter (fun o => Q o = true) os) = count (fun o => Q o && P o) os.
Proof.
  unfold count. induction os as [|o os IH]; [reflexivity|]. rewrite !filter_cons. destruct (Q o) eqn:EQ.
  - rewrite decide_True by done. rewrite filter_cons. destruct (P o) eqn:EP; [rewrite !decide_True by done; cbn; by rewrite IH|].
    rewrite !decide_False by done. done.
  - rewrite decide_False by done. cbn [andb]. rewrite decide_False by done. done.
Qed.
(** If every key is as frequent as any other, a property of the key is as frequent among the elements as among the keys. *)
Lemma count_by_key `{EqDecision K} {A} (key : A -> K) (ks : list K) os (F : K -> bool) c : NoDup ks -> (forall o, o ∈ os -> key o ∈ ks) ->
  (forall k, k ∈ ks -> count (fun o => bool_decide (key o = k)) os = c) ->
  count (fun o => F (key o)) os = (c * count F ks)%nat /\ length os = (c * length ks)%nat.
Proof.
  intros ND HK HC. split.
  - unfold count at 1. rewrite (count_group key (filter (fun k => F k = true) ks) (filter (fun o => F (key o) = true) os)).
    + rewrite (nsum_const _ c); [done|]. intros k Hk. apply elem_of_list_filter in Hk as [Fk Hk]. rewrite (count_filter (fun o => bool_decide (key o = k)) (fun o => F (key o))).
      rewrite <- (HC k Hk). apply count_ext. intros o _. case_bool_decide as E; [by rewrite E, Fk|by destruct (F (key o))].
    + by apply NoDup_filter.
    + intros o Ho. apply elem_of_list_filter in Ho as [Fo Ho]. apply elem_of_list_filter. split; [done|by apply HK].
  - rewrite (count_group key ks os ND HK). by apply nsum_const.
Qed.
