(** Lemmas about the Go conventions of Model/Base.v. *)
From Verif.Model Require Import Base.
From Coq Require Import ZifyBool ZifyNat Lia.

Lemma foldM_app {S A} (f : S -> A -> res S) xs ys s :
  foldM f s (xs ++ ys) = match foldM f s xs with Ok s' => foldM f s' ys | Panic p => Panic p end.
Proof.
  revert s; induction xs as [|x xs IH]; intros s; simpl; [done|].
  destruct (f s x); [apply IH | done].
Qed.

Lemma foldM_snoc {S A} (f : S -> A -> res S) xs x s :
  foldM f s (xs ++ [x]) = match foldM f s xs with Ok s' => f s' x | Panic p => Panic p end.
Proof.
  rewrite foldM_app. destruct (foldM f s xs) as [s'|p]; [|done].
  simpl. by destruct (f s' x).
Qed.

Lemma fold_left_snoc {A B} (f : A -> B -> A) xs x a :
  fold_left f (xs ++ [x]) a = f (fold_left f xs a) x.
Proof. by rewrite fold_left_app. Qed.

(** Pure steps make a pure fold. *)
Lemma foldM_pure {S A} (f : S -> A -> res S) (g : S -> A -> S) xs s :
  (forall s x, f s x = Ok (g s x)) -> foldM f s xs = Ok (fold_left g xs s).
Proof.
  intros H. revert s; induction xs as [|x xs IH]; intros s; simpl; [done|].
  rewrite H. apply IH.
Qed.

(** Invariant rule for [foldM]. *)
Lemma foldM_inv {S A} (I : S -> Prop) (f : S -> A -> res S) xs s :
  I s -> (forall s x, I s -> x ∈ xs -> exists s', f s x = Ok s' /\ I s') ->
  exists s', foldM f s xs = Ok s' /\ I s'.
Proof.
  revert s; induction xs as [|x xs IH]; intros s Hs Hstep; simpl.
  - eauto.
  - destruct (Hstep s x Hs) as (s1 & -> & Hs1); [left|].
    apply IH; [done|]. intros s2 y H2 Hy. apply Hstep; [done|by right].
Qed.

(** Invariant rule with the processed prefix. *)
Lemma foldM_inv_prefix {S A} (I : list A -> S -> Prop) (f : S -> A -> res S) xs s :
  I [] s ->
  (forall pre x s, I pre s -> pre ++ [x] `prefix_of` xs -> exists s', f s x = Ok s' /\ I (pre ++ [x]) s') ->
  exists s', foldM f s xs = Ok s' /\ I xs s'.
Proof.
  intros H0 Hstep. revert xs Hstep. refine (rev_ind _ _ _).
  - intros _. simpl. eauto.
  - intros x xs IH Hstep.
    destruct IH as (s1 & Hs1 & HI).
    { intros pre y s2 HI Hp. apply Hstep; [done|].
      etrans; [exact Hp|]. by apply prefix_app_r. }
    destruct (Hstep xs x s1 HI) as (s2 & Hs2 & HI2); [done|].
    exists s2. rewrite foldM_snoc, Hs1. done.
Qed.

Lemma mapM_res_Forall2 {A B} (f : A -> res B) xs ys :
  mapM_res f xs = Ok ys <-> Forall2 (fun x y => f x = Ok y) xs ys.
Proof.
  split.
  - revert ys; induction xs as [|x xs IH]; intros ys; simpl.
    + intros [= <-]. constructor.
    + destruct (f x) as [y|] eqn:E; [|done].
      destruct (mapM_res f xs) as [ys'|] eqn:E'; [|done].
      intros [= <-]. constructor; [done|]. by apply IH.
  - induction 1 as [|x y xs ys E _ IH]; simpl; [done|]. by rewrite E, IH.
Qed.

Lemma mapM_res_length {A B} (f : A -> res B) xs ys :
  mapM_res f xs = Ok ys -> length ys = length xs.
Proof. intros H%mapM_res_Forall2. symmetry. by eapply Forall2_length. Qed.

Lemma mapM_res_total {A B} (f : A -> res B) xs :
  (forall x, x ∈ xs -> exists y, f x = Ok y) -> exists ys, mapM_res f xs = Ok ys.
Proof.
  induction xs as [|x xs IH]; intros H; simpl; [eauto|].
  destruct (H x) as [y ->]; [left|].
  destruct IH as [ys ->]; [|eauto]. intros z Hz. apply H. by right.
Qed.

Lemma mapM_res_panic {A B} (f : A -> res B) xs p :
  mapM_res f xs = Panic p -> exists x, x ∈ xs /\ f x = Panic p.
Proof.
  induction xs as [|x xs IH]; simpl; [done|].
  destruct (f x) as [y|q] eqn:E.
  - destruct (mapM_res f xs) as [ys|]; [done|].
    intros H. destruct (IH H) as (z & Hz & Hz'). exists z. split; [by right|done].
  - intros [= <-]. exists x. split; [left|done].
Qed.

Lemma mapM_res_lookup {A B} (f : A -> res B) xs ys i x :
  mapM_res f xs = Ok ys -> xs !! i = Some x -> exists y, ys !! i = Some y /\ f x = Ok y.
Proof.
  intros H%mapM_res_Forall2 Hx. eapply Forall2_lookup_l in H as (y & ? & ?); eauto.
Qed.

(** sget / sset *)
Lemma sget_Ok {A} (xs : list A) i x :
  sget xs i = Ok x <-> 0 <= i /\ xs !! Z.to_nat i = Some x.
Proof.
  unfold sget. destruct (Z.ltb_spec i 0).
  - split; [done|lia].
  - destruct (xs !! Z.to_nat i); naive_solver.
Qed.

Lemma sget_nat {A} (xs : list A) (i : nat) x :
  xs !! i = Some x -> sget xs (Z.of_nat i) = Ok x.
Proof. intros. apply sget_Ok. split; [lia|]. by rewrite Nat2Z.id. Qed.

Lemma sget_total {A} (xs : list A) i :
  0 <= i < Z.of_nat (length xs) -> exists x, sget xs i = Ok x /\ xs !! Z.to_nat i = Some x.
Proof.
  intros H. destruct (lookup_lt_is_Some_2 xs (Z.to_nat i)) as [x Hx]; [lia|].
  exists x. split; [|done]. apply sget_Ok. split; [lia|done].
Qed.

Lemma sget_panic {A} (xs : list A) i :
  (i < 0 \/ Z.of_nat (length xs) <= i) <-> sget xs i = Panic PIndex.
Proof.
  unfold sget. destruct (Z.ltb_spec i 0).
  - split; [done|lia].
  - destruct (xs !! Z.to_nat i) as [x|] eqn:E.
    + apply lookup_lt_Some in E. split; [lia|done].
    + apply lookup_ge_None in E. split; [done|lia].
Qed.

Lemma sset_Ok {A} (xs : list A) i v ys :
  sset xs i v = Ok ys <-> 0 <= i < Z.of_nat (length xs) /\ ys = <[Z.to_nat i := v]> xs.
Proof.
  unfold sset. destruct (Z.ltb_spec i 0); [split; [done|lia]|].
  case_decide; split.
  - intros [= <-]. split; [lia|done].
  - by intros [_ ->].
  - done.
  - lia.
Qed.

Lemma sset_total {A} (xs : list A) i v :
  0 <= i < Z.of_nat (length xs) -> sset xs i v = Ok (<[Z.to_nat i := v]> xs).
Proof. intros. by apply sset_Ok. Qed.

Lemma sset_panic {A} (xs : list A) i v :
  (i < 0 \/ Z.of_nat (length xs) <= i) <-> sset xs i v = Panic PIndex.
Proof.
  unfold sset. destruct (Z.ltb_spec i 0).
  - split; [done|lia].
  - case_decide; split; (done || lia).
Qed.

(** 64-bit arithmetic *)
Lemma u64_range z : 0 <= u64 z < 2^64.
Proof. unfold u64. apply Z.mod_pos_bound. lia. Qed.

Lemma u64_small z : 0 <= z < 2^64 -> u64 z = z.
Proof. intros. unfold u64. by apply Z.mod_small. Qed.

Lemma wrap64_range z : in_int64 (wrap64 z).
Proof. unfold in_int64, wrap64, minInt64, maxInt64. pose proof (Z.mod_pos_bound (z+2^63) (2^64)). lia. Qed.

Lemma wrap64_small z : in_int64 z -> wrap64 z = z.
Proof.
  unfold in_int64, wrap64, minInt64, maxInt64. intros. rewrite Z.mod_small; lia.
Qed.

Lemma wrap64_mod z n : 0 <= n <= 64 -> wrap64 z mod 2^n = z mod 2^n.
Proof.
  intros Hn. unfold wrap64.
  pose proof (Z.div_mod (z + 2^63) (2^64) ltac:(lia)) as HD.
  replace ((z + 2 ^ 63) mod 2 ^ 64 - 2 ^ 63)
    with (z + (- ((z + 2^63) / 2^64) * 2^(64-n)) * 2^n).
  - apply Z.mod_add. lia.
  - rewrite <-Z.mul_assoc, <-Z.pow_add_r by lia.
    replace (64 - n + n) with 64 by lia. lia.
Qed.

Lemma u64_mod z n : 0 <= n <= 64 -> u64 z mod 2^n = z mod 2^n.
Proof.
  intros Hn. unfold u64.
  pose proof (Z.div_mod z (2^64) ltac:(lia)) as HD.
  replace (z mod 2 ^ 64) with (z + (- (z / 2^64) * 2^(64-n)) * 2^n).
  - apply Z.mod_add. lia.
  - rewrite <-Z.mul_assoc, <-Z.pow_add_r by lia.
    replace (64 - n + n) with 64 by lia. lia.
Qed.

Lemma wrap64_wrap64_succ z : wrap64 (wrap64 z + 1) = wrap64 (z + 1).
Proof.
  unfold wrap64.
  replace ((z + 2 ^ 63) mod 2 ^ 64 - 2 ^ 63 + 1 + 2 ^ 63) with ((z + 2 ^ 63) mod 2 ^ 64 + 1) by lia.
  rewrite Zplus_mod_idemp_l. f_equal. f_equal. lia.
Qed.

(** draws *)
Lemma draw_below_range n g z g' : 0 < n -> draw_below n g = (z, g') -> 0 <= z < n.
Proof. intros ? [= <- _]. by apply Z.mod_pos_bound. Qed.

(** swaps and shuffles are permutations *)
Lemma swap_at_length {A} i j (l : list A) : length (swap_at i j l) = length l.
Proof. unfold swap_at. destruct (l !! i), (l !! j); rewrite ?insert_length; done. Qed.

Lemma swap_at_Permutation {A} i j (l : list A) : swap_at i j l ≡ₚ l.
Proof.
  unfold swap_at. destruct (l !! i) as [x|] eqn:Hi; [|done].
  destruct (l !! j) as [y|] eqn:Hj; [|done].
  destruct (decide (i = j)) as [->|Hij].
  - rewrite list_insert_insert, list_insert_id by congruence. done.
  - assert (Hlen := lookup_lt_Some _ _ _ Hi).
    assert (Hlenj := lookup_lt_Some _ _ _ Hj).
    apply Permutation_inj. split; [by rewrite !insert_length|].
    exists (fun k => if decide (k = i) then j else if decide (k = j) then i else k).
    split.
    + intros a b. repeat case_decide; subst; congruence.
    + intros k. repeat case_decide; subst.
      * rewrite list_lookup_insert; [done|by rewrite insert_length].
      * rewrite list_lookup_insert_ne by done. by rewrite list_lookup_insert.
      * rewrite !list_lookup_insert_ne by done. done.
Qed.

Lemma fisher_yates_Permutation {A} i (l l' : list A) g g' :
  fisher_yates i l g = (l', g') -> l' ≡ₚ l.
Proof.
  revert l g; induction i as [|i IH]; intros l g; cbn [fisher_yates].
  - by intros [= <- _].
  - destruct (draw_below _ g) as [j g1]. intros H%IH. rewrite H. apply swap_at_Permutation.
Qed.

Lemma shuffle_Permutation {A} (l l' : list A) g g' : shuffle l g = (l', g') -> l' ≡ₚ l.
Proof. apply fisher_yates_Permutation. Qed.

Lemma positiveOddRandomInt_spec g z g' :
  positiveOddRandomInt g = (z, g') -> 0 < z <= maxInt64 /\ Z.odd z = true.
Proof.
  unfold positiveOddRandomInt, rand_int.
  destruct (draw_below (2^63) g) as [n g1] eqn:E.
  apply draw_below_range in E; [|lia].
  rewrite Zmod_even, <-Z.negb_odd.
  destruct (Z.odd n) eqn:Ho; simpl; intros [= <- _].
  - split; [|done]. unfold maxInt64. destruct (decide (n = 0)) as [->|]; [done|lia].
  - rewrite wrap64_small.
    + split; [|by rewrite Z.add_1_r, Z.odd_succ, <-Z.negb_odd, Ho].
      unfold maxInt64. enough (n <> 2^63-1) by lia. intros ->. done.
    + unfold in_int64, minInt64, maxInt64. enough (n <> 2^63-1) by lia. intros ->. done.
Qed.

Lemma oddRandoms_spec n g zs g' :
  oddRandoms n g = (zs, g') ->
  length zs = n /\ Forall (fun z => 0 < z <= maxInt64 /\ Z.odd z = true) zs.
Proof.
  revert g zs; induction n as [|n IH]; intros g zs; cbn [oddRandoms].
  - intros [= <- _]. by constructor.
  - destruct (positiveOddRandomInt g) as [x g1] eqn:E1.
    destruct (oddRandoms n g1) as [xs g2] eqn:E2. intros [= <- <-].
    apply IH in E2 as [<- ?]. apply positiveOddRandomInt_spec in E1.
    split; [done|]. by constructor.
Qed.

Lemma foldM_preserve {S A} (P : S -> Prop) (f : S -> A -> res S) xs s s' :
  (forall s x s', P s -> f s x = Ok s' -> P s') -> P s -> foldM f s xs = Ok s' -> P s'.
Proof.
  intros Hf. revert s. induction xs as [|x xs IH]; intros s Hs; simpl.
  - by intros [= <-].
  - destruct (f s x) as [s1|] eqn:E; [|done]. apply IH. by eapply Hf.
Qed.

(** drawing does not change the stream *)
Lemma fisher_yates_rstream {A} i (l l' : list A) g g' :
  fisher_yates i l g = (l', g') -> rstream g' = rstream g.
Proof.
  revert l g. induction i as [|i IH]; intros l g; cbn [fisher_yates]; [by intros [= _ <-]|].
  unfold draw_below, draw. intros H%IH. done.
Qed.
Lemma shuffle_rstream {A} (l l' : list A) g g' : shuffle l g = (l', g') -> rstream g' = rstream g.
Proof. apply fisher_yates_rstream. Qed.
