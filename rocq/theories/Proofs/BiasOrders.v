(** Which feature wins in a window of a random order. *)
From Coq Require Import Factorial.
From stdpp Require Import sorting.
From Verif.Spec Require Import BiasSpec.
From Verif.Proofs Require Import FloatOrder WtaProofs BiasCount.
From Coq Require Import Lia.
Local Open Scope Z_scope.

(** * The winner *)
Definition is_best (u : list float64) (w : list Z) (f : Z) : Prop :=
  f ∈ w /\ forall f', f' ∈ w -> f' <> f -> fltb (value_of u f') (value_of u f) = true.
Definition in_range (u : list float64) (w : list Z) : Prop := forall f, f ∈ w -> 0 <= f < Z.of_nat (length u).
Lemma different_values u f f' : all_different u -> 0 <= f < Z.of_nat (length u) -> 0 <= f' < Z.of_nat (length u) -> f <> f' ->
  fltb (value_of u f) (value_of u f') = true \/ fltb (value_of u f') (value_of u f) = true.
Proof.
  intros H F F' NE. destruct (lookup_lt_is_Some_2 u (Z.to_nat f)) as [x Hx]; [lia|]. destruct (lookup_lt_is_Some_2 u (Z.to_nat f')) as [y Hy]; [lia|].
  unfold value_of. rewrite Hx, Hy. cbn. apply (H (Z.to_nat f) (Z.to_nat f')); [lia|done..].
Qed.
Lemma best_unique u w f f' : is_best u w f -> is_best u w f' -> f = f'.
Proof.
  intros [H1 H2] [H1' H2']. destruct (decide (f = f')) as [|NE]; [done|]. pose proof (H2 f' H1' ltac:(done)) as A. pose proof (H2' f H1 NE) as B.
  apply fltb_asym in A. congruence.
Qed.
Lemma best_exists u w : all_different u -> in_range u w -> w <> [] -> exists f, is_best u w f.
Proof.
  intros HD. induction w as [|f w IH]; intros HR NE; [done|]. destruct w as [|f2 w].
  - exists f. split; [left|]. intros f' Hf'. apply elem_of_list_singleton in Hf' as ->. done.
  - destruct IH as [b [B1 B2]]; [intros x Hx; apply HR; by right|done|]. destruct (decide (f = b)) as [->|NEb].
    + exists b. split; [left|]. intros f' [->|Hf']%elem_of_cons NE'; [done|by apply B2].
    + destruct (different_values u f b HD) as [L|L]; [apply HR; left|apply HR; by right|done| |].
      * exists b. split; [by right|]. intros f' [->|Hf']%elem_of_cons NE'; [done|by apply B2].
      * exists f. split; [left|]. intros f' [->|Hf']%elem_of_cons NE'; [done|]. destruct (decide (f' = b)) as [->|N2]; [done|].
        eapply fltb_trans; [by apply B2|done].
Qed.
Lemma best_perm u w w' f : w ≡ₚ w' -> is_best u w f -> is_best u w' f.
Proof. intros P [H1 H2]. split; [by rewrite <- P|]. intros f' Hf'. apply H2. by rewrite P. Qed.
Lemma winner_best u w f : is_best u w f -> winner u w = Some f.
Proof.
  intros HB. unfold winner.
  assert (Q : forall g, g ∈ filter (fun f => forallb (fun f' => bool_decide (f' = f) || fltb (value_of u f') (value_of u f)) w = true) w <-> is_best u w g).
  { intros g. rewrite elem_of_list_filter, forallb_forall. split.
    - intros [H1 H2]. split; [done|]. intros f' Hf' NE. specialize (H1 f' ltac:(by apply elem_of_list_In)). rewrite bool_decide_false in H1 by done. done.
    - intros [H1 H2]. split; [|done]. intros f' Hf'. apply elem_of_list_In in Hf'. case_bool_decide as E; [done|]. by apply H2. }
  destruct (filter _ w) as [|g gs] eqn:EF.
  - apply Q in HB. by apply elem_of_nil in HB.
  - cbn. f_equal. apply (best_unique u w); [apply Q; left|done].
Qed.
Lemma winner_iff u w f : all_different u -> in_range u w -> winner u w = Some f <-> is_best u w f.
Proof.
  intros HD HR. split; [|apply winner_best]. intros H. destruct w as [|x w]; [done|].
  destruct (best_exists u (x :: w) HD HR ltac:(done)) as [b Hb]. rewrite (winner_best _ _ _ Hb) in H. by injection H as <-.
Qed.
Lemma winner_perm u w w' : all_different u -> in_range u w -> w ≡ₚ w' -> winner u w = winner u w'.
Proof.
  intros HD HR P. destruct w as [|x w]; [apply Permutation_nil in P; by subst|].
  destruct (best_exists u (x :: w) HD HR ltac:(done)) as [b Hb]. by rewrite (winner_best _ _ _ Hb), (winner_best u w' b (best_perm _ _ _ _ P Hb)).
Qed.

(** * Windows *)
Definition enum (n : Z) (os : list (list Z)) : Prop := NoDup os /\ forall o, o ∈ os <-> o ≡ₚ seqZ 0 n.
Definition window (a k : nat) (o : list Z) : list Z := take k (drop a o).
Lemma window_in a k o f : f ∈ window a k o -> f ∈ o.
Proof. unfold window. intros H. apply elem_of_list_lookup in H as [i H]. apply lookup_take_Some in H as [H _]. rewrite lookup_drop in H. by eapply elem_of_list_lookup_2. Qed.
Lemma window_range u n a k o : Z.of_nat (length u) = n -> o ≡ₚ seqZ 0 n -> in_range u (window a k o).
Proof. intros L P f Hf%window_in. rewrite P in Hf. apply elem_of_seqZ in Hf. lia. Qed.
Lemma window_lookup a k o q : (q < k)%nat -> window a k o !! q = o !! (a + q)%nat.
Proof. intros H. unfold window. by rewrite lookup_take, lookup_drop. Qed.
Lemma window_NoDup a k o : NoDup o -> NoDup (window a k o).
Proof.
  intros H. apply NoDup_alt. intros i j x Hi Hj. unfold window in *. apply lookup_take_Some in Hi as [Hi _], Hj as [Hj _]. rewrite lookup_drop in Hi, Hj.
  pose proof (proj1 (NoDup_lookup _) H) as Q || pose proof (proj1 (NoDup_alt _) H) as Q. specialize (Q _ _ _ Hi Hj). lia.
Qed.
Lemma window_length a k n o : o ≡ₚ seqZ 0 n -> Z.of_nat (a + k) <= n -> length (window a k o) = k.
Proof. intros P H. pose proof (Permutation_length P) as L. rewrite seqZ_length in L. unfold window. rewrite take_length, drop_length. lia. Qed.
(** Exchanging two slots of the window. *)
Lemma swap_perm i j (o : list Z) : swap_at i j o ≡ₚ o.
Proof.
  unfold swap_at. destruct (o !! i) as [x|] eqn:Hi; [|done]. destruct (o !! j) as [y|] eqn:Hj; [|done]. 
  destruct (decide (i = j)) as [->|NE].
  - assert (x = y) as <- by congruence. rewrite list_insert_insert. by rewrite list_insert_id.
  - symmetry. apply Permutation_inj. split; [by rewrite !insert_length|].
    exists (fun k => if decide (k = i) then j else if decide (k = j) then i else k). split.
    + intros a b E. repeat destruct decide; congruence.
    + intros k. assert (Li := lookup_lt_Some _ _ _ Hi). assert (Lj := lookup_lt_Some _ _ _ Hj). destruct (decide (k = i)) as [->|N1]; [|destruct (decide (k = j)) as [->|N2]].
      * rewrite Hi. rewrite list_lookup_insert_ne by done. rewrite list_lookup_insert by done. done.
      * rewrite Hj. rewrite list_lookup_insert by (rewrite insert_length; done). done.
      * rewrite !list_lookup_insert_ne by done. done.
Qed.
Lemma swap_at_lookup i j (o : list Z) k : (i < length o)%nat -> (j < length o)%nat ->
  swap_at i j o !! k = o !! (if decide (k = i) then j else if decide (k = j) then i else k).
Proof.
  intros Li Lj. unfold swap_at. destruct (lookup_lt_is_Some_2 _ _ Li) as [x Hi]. destruct (lookup_lt_is_Some_2 _ _ Lj) as [y Hj]. rewrite Hi, Hj.
  destruct (decide (k = i)) as [->|N1]; [rewrite list_lookup_insert by (by rewrite insert_length); congruence|]. rewrite list_lookup_insert_ne by done.
  destruct (decide (k = j)) as [->|N2]; [rewrite list_lookup_insert by done; congruence|]. by rewrite list_lookup_insert_ne.
Qed.
Lemma swap_window a k i j (o : list Z) : (a + k <= length o)%nat -> (i < k)%nat -> (j < k)%nat ->
  window a k (swap_at (a + i) (a + j) o) = swap_at i j (window a k o).
Proof.
  intros L Li Lj. assert (LW : length (window a k o) = k) by (unfold window; rewrite take_length, drop_length; lia).
  apply list_eq. intros q. rewrite swap_at_lookup by lia. destruct (decide (q < k)%nat) as [Lq|Lq].
  - rewrite window_lookup by done. rewrite swap_at_lookup by lia. destruct (decide (q = i)) as [->|N1]; [rewrite decide_True by done; by rewrite window_lookup|].
    rewrite decide_False by lia. destruct (decide (q = j)) as [->|N2]; [rewrite decide_True by done; by rewrite window_lookup|]. rewrite decide_False by lia. by rewrite window_lookup.
  - rewrite decide_False by lia. rewrite decide_False by lia. rewrite (proj2 (lookup_ge_None (window a k o) q)) by lia. apply lookup_ge_None.
    unfold window. rewrite take_length, drop_length. rewrite (Permutation_length (swap_perm _ _ o)). lia.
Qed.

(** * Every slot wins equally often *)
Definition slot (u : list float64) (w : list Z) : nat := default 0%nat (f ← winner u w; fst <$> list_find (eq f) w).
Lemma slot_spec u w q f : all_different u -> in_range u w -> NoDup w -> is_best u w f -> w !! q = Some f -> slot u w = q.
Proof.
  intros HD HR ND HB Hq. unfold slot. rewrite (winner_best _ _ _ HB). cbn. destruct (list_find (eq f) w) as [[q' f']|] eqn:EF.
  - apply list_find_Some in EF as (Hq' & <- & _). cbn. eapply NoDup_lookup; eassumption.
  - apply list_find_None in EF. rewrite Forall_forall in EF. exfalso. apply (EF f); [by eapply elem_of_list_lookup_2|done].
Qed.
Lemma slot_best u w : all_different u -> in_range u w -> NoDup w -> w <> [] -> exists f, is_best u w f /\ w !! slot u w = Some f.
Proof.
  intros HD HR ND NE. destruct (best_exists u w HD HR NE) as [f Hf]. exists f. split; [done|]. pose proof Hf as [Hin _]. apply elem_of_list_lookup in Hin as [q Hq].
  by rewrite (slot_spec u w q f).
Qed.
Section Slots.
  Context (n : Z) (os : list (list Z)) (a k : nat) (u : list float64) (HE : enum n os) (Ha : Z.of_nat (a + k) <= n) (K0 : (0 < k)%nat) (HD : all_different u) (HL : Z.of_nat (length u) = n).
  Lemma slots_le i j : (i < k)%nat -> (j < k)%nat ->
    (count (fun o => bool_decide (slot u (window a k o) = i)) os <= count (fun o => bool_decide (slot u (window a k o) = j)) os)%nat.
  Proof using HE Ha K0 HD HL.
    intros Li Lj. destruct HE as [ND HO].
    assert (LO : forall o, o ∈ os -> (a + k <= length o)%nat) by (intros o Ho; apply HO in Ho; pose proof (Permutation_length Ho) as L; rewrite seqZ_length in L; lia).
    apply (count_le (swap_at (a + i) (a + j))); [done| |].
    - intros o Ho HP. apply bool_decide_eq_true in HP. pose proof (proj1 (HO o) Ho) as PO. split; [apply HO; by rewrite swap_perm|].
      apply bool_decide_eq_true. rewrite swap_window by (try apply LO; done).
      assert (RW := window_range u n a k o HL PO). assert (NW : NoDup (window a k o)) by (apply window_NoDup; rewrite PO; apply NoDup_seqZ).
      assert (LW := window_length a k n o PO Ha). destruct (slot_best u (window a k o)) as (f & HB & Hf); [done..| |]; [by destruct (window a k o); [cbn in LW; lia|]|].
      rewrite HP in Hf. apply (slot_spec u _ j f); [done| | | |].
      + intros x Hx. apply RW. by rewrite swap_perm in Hx.
      + by rewrite swap_perm.
      + eapply best_perm; [|exact HB]. by rewrite swap_perm.
      + rewrite swap_at_lookup by lia. destruct (decide (j = i)) as [->|]; [done|]. by rewrite decide_True by done.
    - intros o o' Ho Ho' _ _ E. pose proof (LO o Ho). pose proof (LO o' Ho'). apply list_eq. intros q.
      set (q' := if decide (q = a + i)%nat then (a + j)%nat else if decide (q = a + j)%nat then (a + i)%nat else q).
      assert (E2 : swap_at (a + i) (a + j) o !! q' = swap_at (a + i) (a + j) o' !! q') by (by rewrite E). rewrite !swap_at_lookup in E2 by lia.
      assert (EQ : (if decide (q' = a + i)%nat then (a + j)%nat else if decide (q' = a + j)%nat then (a + i)%nat else q') = q) by (unfold q'; repeat destruct decide; lia).
      by rewrite EQ in E2.
  Qed.
  Lemma slots_fair i : (i < k)%nat -> (k * count (fun o => bool_decide (slot u (window a k o) = i)) os = length os)%nat.
  Proof using HE Ha K0 HD HL.
    intros Li. destruct HE as [ND HO].
    rewrite (count_group (fun o => slot u (window a k o)) (seq 0 k) os); [|apply NoDup_seq|].
    - rewrite (nsum_const _ (count (fun o => bool_decide (slot u (window a k o) = i)) os)); [rewrite seq_length; lia|].
      intros j Hj. apply elem_of_seq in Hj. apply Nat.le_antisymm; apply slots_le; lia.
    - intros o Ho. apply elem_of_seq. apply HO in Ho. pose proof (window_range u n a k o HL Ho) as RW. assert (NW : NoDup (window a k o)) by (apply window_NoDup; rewrite Ho; apply NoDup_seqZ).
      pose proof (window_length a k n o Ho Ha) as LW. destruct (slot_best u (window a k o)) as (f & HB & Hf); [done..| |]; [by destruct (window a k o); [cbn in LW; lia|]|].
      apply lookup_lt_Some in Hf. lia.
  Qed.
End Slots.
