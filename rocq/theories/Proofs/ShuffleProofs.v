(** Every order of a list is the result of exactly one sequence of choices. *)
From Verif.Model Require Export Layer.
From Verif.Spec Require Export ShuffleSpec.
From Verif.Proofs Require Export BaseProofs Pres NodeMore.
From Coq Require Import Lia ZifyBool ZifyNat.
Local Open Scope Z_scope.

Lemma swap_lookup {A} i j (l : list A) y : (j <= i)%nat -> (i < length l)%nat -> l !! j = Some y ->
  swap_at i j l !! i = Some y /\ (forall k, (i < k)%nat -> swap_at i j l !! k = l !! k).
Proof.
  intros Hj Hi Hy. unfold swap_at. destruct (lookup_lt_is_Some_2 l i Hi) as [x Hx]. rewrite Hx, Hy. split.
  - by rewrite list_lookup_insert by (by rewrite insert_length).
  - intros k Hk. rewrite !list_lookup_insert_ne by lia. done.
Qed.
Lemma fisher_yates_high {A} i : forall (l : list A) g k, (i < k)%nat -> (fisher_yates i l g).1 !! k = l !! k.
Proof.
  induction i as [|i IH]; intros l g k Hk; cbn [fisher_yates]; [done|]. unfold draw_below, draw.
  rewrite IH by lia. set (j := Z.to_nat _). unfold swap_at.
  assert (Hj : (j <= S i)%nat). { subst j. pose proof (Z.mod_pos_bound (rstream g (rpos g)) (Z.of_nat (S (S i)))). lia. }
  destruct (l !! S i), (l !! j); try done. rewrite !list_lookup_insert_ne by lia. done.
Qed.

Lemma fisher_yates_fair {A} i : forall (l ys : list A), NoDup l -> (i < length l)%nat -> ys ≡ₚ l ->
  (forall k, (i < k)%nat -> ys !! k = l !! k) ->
  exists ds, length ds = i /\ (forall k d, ds !! k = Some d -> 0 <= d < Z.of_nat (S i - k)) /\
    forall s p, (fisher_yates i l (mkRng s p)).1 = ys <-> forall k d, ds !! k = Some d -> s (p + k)%nat mod Z.of_nat (S i - k) = d.
Proof.
  induction i as [|i IH]; intros l ys HN Hi HP HK.
  - exists []. split; [done|]. split; [done|]. intros s p. cbn. split; [done|]. intros _.
    destruct l as [|x l]; cbn in Hi; [lia|]. destruct ys as [|y ys]; [by apply Permutation_nil_l in HP|].
    assert (ys = l) as ->. { apply list_eq. intros k. apply (HK (S k)). lia. }
    f_equal. apply (Permutation_app_inv_r l [y] [x]) in HP. cbn in HP. by apply Permutation_singleton_r in HP as [= ->].
  - assert (HL : length ys = length l) by (by apply Permutation_length).
    destruct (lookup_lt_is_Some_2 ys (S i)) as [y Hy]; [lia|].
    assert (exists j, l !! j = Some y) as [j Hj]. { apply elem_of_list_lookup. rewrite <- HP. by eapply elem_of_list_lookup_2. }
    assert (Hji : (j <= S i)%nat).
    { destruct (decide (j <= S i)%nat); [done|]. exfalso. assert (ys !! j = Some y) by (rewrite HK by lia; done).
      assert (NoDup ys) as HNy by (by rewrite HP). pose proof (NoDup_lookup _ _ _ _ HNy Hy H). lia. }
    destruct (swap_lookup (S i) j l y Hji Hi Hj) as [H1 H2].
    destruct (IH (swap_at (S i) j l) ys) as (ds & Hl & Hr & Hs).
    { by rewrite swap_at_Permutation. } { rewrite swap_at_length. lia. } { by rewrite swap_at_Permutation. }
    { intros k Hk. destruct (decide (k = S i)) as [->|]; [by rewrite H1|]. rewrite H2 by lia. apply HK. lia. }
    exists (Z.of_nat j :: ds). split; [cbn; by rewrite Hl|]. split.
    { intros [|k] d; cbn [lookup list_lookup]; [intros [= <-]; lia|]. intros Hd%Hr. lia. }
    intros s p. cbn [fisher_yates]. unfold draw_below, draw. cbn [rstream rpos].
    assert (E : Z.to_nat (s p mod Z.of_nat (S (S i))) = j -> (fisher_yates i (swap_at (S i) (Z.to_nat (s p mod Z.of_nat (S (S i)))) l) (mkRng s (S p))).1 = ys <->
      forall k d, ds !! k = Some d -> s (S p + k)%nat mod Z.of_nat (S i - k) = d) by (intros ->; apply Hs).
    pose proof (Z.mod_pos_bound (s p) (Z.of_nat (S (S i))) ltac:(lia)) as HB.
    split.
    + intros H. assert (Hj' : Z.to_nat (s p mod Z.of_nat (S (S i))) = j).
      { destruct (lookup_lt_is_Some_2 l (Z.to_nat (s p mod Z.of_nat (S (S i))))) as [y' Hy']; [lia|].
        destruct (swap_lookup (S i) (Z.to_nat (s p mod Z.of_nat (S (S i)))) l y' ltac:(lia) Hi Hy') as [H3 _].
        rewrite <- H in Hy. rewrite fisher_yates_high, H3 in Hy by lia. injection Hy as ->. by eapply NoDup_lookup. }
      intros [|k] d; cbn [lookup list_lookup].
      * intros [= <-]. rewrite Nat.add_0_r. replace (S (S i) - 0)%nat with (S (S i)) by lia. lia.
      * intros Hd. replace (p + S k)%nat with (S p + k)%nat by lia. replace (S (S i) - S k)%nat with (S i - k)%nat by lia.
        by apply (proj1 (E Hj') H).
    + intros H. assert (Hj' : Z.to_nat (s p mod Z.of_nat (S (S i))) = j).
      { specialize (H 0%nat (Z.of_nat j) eq_refl). rewrite Nat.add_0_r in H. replace (S (S i) - 0)%nat with (S (S i)) in H by lia. lia. }
      apply (E Hj'). intros k d Hd. specialize (H (S k) d Hd). replace (p + S k)%nat with (S p + k)%nat in H by lia.
      by replace (S (S i) - S k)%nat with (S i - k)%nat in H by lia.
Qed.

Lemma shuffle_fair {A} (xs ys : list A) : NoDup xs -> ys ≡ₚ xs ->
  exists ds, choices (length xs) ds /\ forall g, (shuffle xs g).1 = ys <-> makes g (length xs) ds.
Proof.
  intros HN HP. unfold choices, makes, shuffle. destruct xs as [|x xs].
  - apply Permutation_nil_r in HP as ->. exists []. split; [done|]. intros g. cbn. done.
  - destruct (fisher_yates_fair (length xs) (x :: xs) ys HN) as (ds & H1 & H2 & H3); [cbn; lia|done| |].
    { intros k Hk. rewrite !lookup_ge_None_2; [done|cbn; lia|]. rewrite (Permutation_length HP). cbn. lia. }
    exists ds. cbn [length Nat.pred]. split; [done|]. intros [s p]. apply H3.
Qed.

Lemma pres_new_hashers {X} (π : mem -> X) E h k l prev : (forall g m, π (upd_rng g m) = π m) -> (forall g m, π (upd_seeds g m) = π m) ->
  pres π (new_hashers E h k l prev).
Proof.
  intros H1 H2 m b m'. unfold new_hashers. destruct (make_hashers _ _ _ _ _ _ _) as [[a g]|]; [|done]. intros [= <- <-]. by rewrite H2, H1.
Qed.
Lemma pres_normFloat64 {X} (π : mem -> X) : (forall g m, π (upd_npos g m) = π m) -> pres π normFloat64.
Proof. intros H m b m'. unfold normFloat64. intros [= <- <-]. by rewrite H. Qed.

Lemma layer_new_order E cowId num prev layerId ty batch k l rp sp w b mo ve m lp m' la : 
  layer_New E cowId num prev layerId ty batch k l rp sp w b mo ve m = Ok (lp, m') -> m_layer m' !! lp = Some la ->
  0 <= num /\ m_ia m' !! l_rand la = Some (shuffle (seqZ 0 num) (m_rng m)).1.
Proof.
  unfold layer_New. intros H Hla.
  apply bindM_inv in H as (zs & m0 & H0 & H). unfold lift in H0. destruct (make_slice 0 num) as [zs'|] eqn:EZ; [|done]. injection H0 as <- <-.
  apply make_slice_Ok in EZ as [Hn ->]. rewrite replicate_length, Z2Nat.id in H by done. split; [done|].
  apply bindM_inv in H as (rn & m1 & H1 & H). unfold with_rng in H1. destruct (shuffle (seqZ 0 num) (m_rng m)) as [ys g] eqn:ES. injection H1 as <- <-.
  apply bindM_inv in H as (r & m2 & H2 & H). unfold alloc in H2. injection H2 as <- <-.
  match type of H with ?c _ = _ => assert (HP : pres m_ia c) end.
  { unfold init_params, init_node, layer_addToHashTable, normals, fslice_sub, make_f, node_Update, node_Weights, NewEmptyNode, NewNodeTrain, fread, fspare. unfold_node.
    repeat first [pres_step | apply pres_new_hashers; done | apply pres_normFloat64; done]. }
  rewrite (HP _ _ _ H). cbn [fst].
  enough (l_rand la = length (m_ia (upd_rng g m))) as ->. { cbn. rewrite lookup_app_r by lia. by rewrite Nat.sub_diag. }
  clear HP ES. repeat match type of H with
  | (_ ≫= _) _ = _ => let a := fresh "a" in let m2 := fresh "m" in let H2 := fresh "H" in apply bindM_inv in H as (a & m2 & H2 & H)
  | (let '(_, _) := ?x in _) _ = _ => destruct x
  end.
  unfold alloc in H. injection H as <- <-. cbn in Hla. rewrite lookup_app_r, Nat.sub_diag in Hla by lia. by injection Hla as <-.
Qed.

Lemma new_order_fair num ys : ys ≡ₚ seqZ 0 num ->
  exists ds, choices (Z.to_nat num) ds /\ forall E cowId prev layerId ty batch k l rp sp w b mo ve m lp m' la,
    layer_New E cowId num prev layerId ty batch k l rp sp w b mo ve m = Ok (lp, m') -> m_layer m' !! lp = Some la ->
    (m_ia m' !! l_rand la = Some ys <-> makes (m_rng m) (Z.to_nat num) ds).
Proof.
  intros HP. destruct (shuffle_fair (seqZ 0 num) ys) as (ds & H1 & H2); [apply NoDup_seqZ|done|].
  assert (length (seqZ 0 num) = Z.to_nat num) as HL by apply seqZ_length. rewrite HL in *.
  exists ds. split; [done|]. intros. destruct (layer_new_order _ _ _ _ _ _ _ _ _ _ _ _ _ _ _ _ _ _ _ H H0) as [_ ->].
  rewrite <- H2. split; [congruence|by intros ->].
Qed.
Lemma reshuffle_fair rn ys : NoDup rn -> ys ≡ₚ rn ->
  exists ds, choices (length rn) ds /\ forall lp m m' la ns,
    m_layer m !! lp = Some la -> m_na m !! l_nodes la = Some ns -> m_ia m !! l_rand la = Some rn -> length ns = length rn ->
    layer_UpdateRandomNodes lp m = Ok (tt, m') ->
    (m_ia m' !! l_rand la = Some ys <-> makes (m_rng m) (length rn) ds).
Proof.
  intros HN HP. destruct (shuffle_fair rn ys HN HP) as (ds & H1 & H2). exists ds. split; [done|].
  intros lp m m' la ns Hla Hns Hrn HL H. unfold layer_UpdateRandomNodes, mbind, M_bind in H. unfold load in H at 1. rewrite Hla in H.
  unfold load in H at 1. rewrite Hns in H. unfold load in H at 1. rewrite Hrn, HL in H.
  destruct (_ && _); [done|]. unfold with_rng in H.
  rewrite <- H2. unfold shuffle. destruct (fisher_yates (Nat.pred (length rn)) rn (m_rng m)) as [ys' g]. 
  unfold store in H. cbn in H. rewrite Hrn in H. injection H as <-. cbn. rewrite list_lookup_insert by (by eapply lookup_lt_Some).
  split; [congruence|by intros ->].
Qed.
