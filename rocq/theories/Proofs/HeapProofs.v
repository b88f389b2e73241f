(** Correctness of container/heap for a total preorder. *)
From Verif.Model Require Import GoHeap.
From Verif.Proofs Require Import BaseProofs.
From Coq Require Import Lia ZifyBool ZifyNat.
Ltac Zify.zify_post_hook ::= Z.to_euclidean_division_equations.

Section heap.
  Context {A : Type} (less : A -> A -> bool).

  (** [less] is a strict weak order on the elements that satisfy [P] *)
  Context (P : A -> Prop).
  Definition le (x y : A) : Prop := less y x = false.
  Definition order_ok : Prop :=
    (forall x y, P x -> P y -> less x y = true -> le x y) /\
    (forall x y z, P x -> P y -> P z -> le x y -> le y z -> le x z).

  Implicit Types h : list A.

  Definition swapped h i j x y : list A := <[j := x]> (<[i := y]> h).

  Lemma h_swap_ok h (i j : nat) x y :
    h !! i = Some x -> h !! j = Some y ->
    h_swap h (Z.of_nat i) (Z.of_nat j) = Ok (swapped h i j x y).
  Proof.
    intros Hi Hj. unfold h_swap. rewrite (sget_nat _ _ _ Hi). cbn [mbind res_bind].
    rewrite (sget_nat _ _ _ Hj). cbn [mbind res_bind].
    pose proof (lookup_lt_Some _ _ _ Hi). pose proof (lookup_lt_Some _ _ _ Hj).
    rewrite sset_total by lia. cbn [mbind res_bind]. rewrite sset_total by (rewrite insert_length; lia).
    by rewrite !Nat2Z.id.
  Qed.

  Lemma swapped_perm h i j x y :
    h !! i = Some x -> h !! j = Some y -> swapped h i j x y ≡ₚ h.
  Proof.
    intros Hi Hj. pose proof (swap_at_Permutation j i h) as H. unfold swap_at in H.
    by rewrite Hi, Hj in H.
  Qed.

  Lemma swapped_length h i j x y : length (swapped h i j x y) = length h.
  Proof. unfold swapped. by rewrite !insert_length. Qed.

  Lemma swapped_lookup h i j x y k :
    i <> j -> (i < length h)%nat -> (j < length h)%nat ->
    swapped h i j x y !! k = if decide (k = j) then Some x else if decide (k = i) then Some y else h !! k.
  Proof.
    intros Hne Hi Hj. unfold swapped. case_decide as H1; [subst k|].
    - rewrite list_lookup_insert; [done|]. by rewrite insert_length.
    - rewrite list_lookup_insert_ne by done. case_decide as H2; [subst k|].
      + by rewrite list_lookup_insert.
      + by rewrite list_lookup_insert_ne.
  Qed.

  (** parent of c *)
  Definition par (c : nat) : nat := ((c - 1) / 2)%nat.

  (** all parents >= i0 except [hole] are below their children among the first n elements *)
  Definition heap_except (n i0 : nat) (hole : option nat) h : Prop :=
    forall c x y, (0 < c < n)%nat -> (i0 <= par c)%nat -> Some (par c) <> hole ->
      h !! par c = Some x -> h !! c = Some y -> le x y.

  (** the parent of the hole is below the children of the hole *)
  Definition bridge (n i0 i : nat) h : Prop :=
    forall c x y, (0 < i)%nat -> (i0 <= par i)%nat -> (0 < c < n)%nat -> par c = i ->
      h !! par i = Some x -> h !! c = Some y -> le x y.

  Lemma h_down_ok fuel h (i n i0 : nat) :
    (n <= length h)%nat -> (i0 <= i)%nat -> (n - i < fuel)%nat -> (i < n \/ n <= 1)%nat ->
    exists h', h_down less fuel h (Z.of_nat i) (Z.of_nat n) = Ok h' /\ h' ≡ₚ h /\
      (forall k, (n <= k)%nat -> h' !! k = h !! k) /\
      (order_ok -> Forall P h -> heap_except n i0 (Some i) h -> bridge n i0 i h ->
       heap_except n i0 None h').
  Proof.
    revert h i. induction fuel as [|fuel IH]; intros h i Hn Hi0 Hf Hin; [lia|].
    cbn [h_down].
    destruct (((Z.of_nat n <=? 2 * Z.of_nat i + 1) || (2 * Z.of_nat i + 1 <? 0))) eqn:E1.
    { exists h. split; [done|]. split; [done|]. split; [done|].
      intros Ho HP HH HB c x y Hc Hp _ Hx Hy. apply (HH c x y); try done.
      intros [= Heq]. unfold par in Heq. lia. }
    assert (Hj1 : (2 * i + 1 < n)%nat) by lia.
    set (j1 := (2 * i + 1)%nat). 
    replace (2 * Z.of_nat i + 1) with (Z.of_nat j1) by lia.
    destruct (lookup_lt_is_Some_2 h j1) as [xj1 Hxj1]; [lia|].
    destruct (lookup_lt_is_Some_2 h i) as [xi Hxi]; [lia|].
    (* the chosen child *)
    assert (Hpick : exists (j : nat) xj,
      (j ← (if Z.of_nat j1 + 1 <? Z.of_nat n
            then b ← h_less less h (Z.of_nat j1 + 1) (Z.of_nat j1); Ok (if b : bool then Z.of_nat j1 + 1 else Z.of_nat j1)
            else Ok (Z.of_nat j1)); Ok j) = Ok (Z.of_nat j) /\
      (0 < j < n)%nat /\ par j = i /\ h !! j = Some xj /\
      (order_ok -> Forall P h -> forall c y, (0 < c < n)%nat -> par c = i -> h !! c = Some y -> le xj y)).
    { destruct (Z.ltb_spec (Z.of_nat j1 + 1) (Z.of_nat n)) as [Hlt|Hge].
      - set (j2 := (j1 + 1)%nat). replace (Z.of_nat j1 + 1) with (Z.of_nat j2) by lia.
        destruct (lookup_lt_is_Some_2 h j2) as [xj2 Hxj2]; [lia|].
        unfold h_less. rewrite (sget_nat _ _ _ Hxj2), (sget_nat _ _ _ Hxj1). cbn [mbind res_bind].
        destruct (less xj2 xj1) eqn:El.
        + exists j2, xj2. split; [done|]. split; [lia|]. split; [unfold par; lia|]. split; [done|].
          intros [Hasym Htr] HP c y Hc Hpc Hy.
          assert (c = j1 \/ c = j2) as [->| ->] by (unfold par in Hpc; lia).
          * rewrite Hxj1 in Hy. injection Hy as <-. apply Hasym; [by eapply Forall_lookup_1..|done].
          * rewrite Hxj2 in Hy. injection Hy as <-. unfold le.
            destruct (less xj2 xj2) eqn:E; [|done].
            pose proof (Hasym xj2 xj2 ltac:(by eapply Forall_lookup_1) ltac:(by eapply Forall_lookup_1) E) as HE.
            unfold le in HE. congruence.
        + exists j1, xj1. split; [done|]. split; [lia|]. split; [unfold par; lia|]. split; [done|].
          intros [Hasym Htr] HP c y Hc Hpc Hy.
          assert (c = j1 \/ c = j2) as [->| ->] by (unfold par in Hpc; lia).
          * rewrite Hxj1 in Hy. injection Hy as <-. unfold le.
            destruct (less xj1 xj1) eqn:E; [|done].
            pose proof (Hasym xj1 xj1 ltac:(by eapply Forall_lookup_1) ltac:(by eapply Forall_lookup_1) E) as HE.
            unfold le in HE. congruence.
          * rewrite Hxj2 in Hy. injection Hy as <-. done.
      - exists j1, xj1. split; [done|]. split; [lia|]. split; [unfold par; lia|]. split; [done|].
        intros [Hasym Htr] HP c y Hc Hpc Hy.
        assert (c = j1) as -> by (unfold par in Hpc; lia).
        rewrite Hxj1 in Hy. injection Hy as <-. unfold le.
        destruct (less xj1 xj1) eqn:E; [|done].
        pose proof (Hasym xj1 xj1 ltac:(by eapply Forall_lookup_1) ltac:(by eapply Forall_lookup_1) E) as HE.
        unfold le in HE. congruence. }
    destruct Hpick as (j & xj & HE & Hjn & Hpj & Hxj & Hmin).
    destruct (if Z.of_nat j1 + 1 <? Z.of_nat n then _ else _) as [jz|]; [|done].
    cbn [mbind res_bind] in HE |- *. injection HE as ->.
    unfold h_less at 1. rewrite (sget_nat _ _ _ Hxj), (sget_nat _ _ _ Hxi). cbn [mbind res_bind].
    assert (Hij : i <> j) by (unfold par in Hpj; lia).
    destruct (less xj xi) eqn:El; cbn [negb].
    2:{ exists h. split; [done|]. split; [done|]. split; [done|].
        intros Ho HP HH HB c x y Hc Hp _ Hx Hy.
        destruct (decide (par c = i)) as [Hpc|Hne].
        - rewrite Hpc in Hx. rewrite Hxi in Hx. injection Hx as <-.
          pose proof (Hmin Ho HP c y Hc Hpc Hy) as Hm. destruct Ho as [_ Htr].
          eapply (Htr xi xj y); [by eapply Forall_lookup_1..|done|done].
        - apply (HH c x y); try done. congruence. }
    rewrite (h_swap_ok h i j xi xj) by done. cbn [mbind res_bind].
    destruct (IH (swapped h i j xi xj) j) as (h' & HE' & Hperm & Hkeep & HH').
    { by rewrite swapped_length. } { unfold par in Hpj; lia. } { unfold par in Hpj; lia. } { lia. }
    exists h'. split; [done|]. split; [by rewrite Hperm, swapped_perm|]. split.
    { intros k Hk. rewrite Hkeep by done. rewrite swapped_lookup by lia.
      rewrite !decide_False by lia. done. }
    intros Ho HP HH HB. apply HH'; clear HH'; [done|by rewrite swapped_perm| |].
    - intros c x y Hc Hp Hhole. rewrite !swapped_lookup by lia.
      assert (Hpcj : par c <> j) by congruence. rewrite (decide_False (P := par c = j)) by done.
      destruct (decide (par c = i)) as [Hpc|Hpc].
      + intros [= <-]. destruct (decide (c = j)) as [->|Hcj].
        * intros [= <-]. destruct Ho as [Hasym _]. apply Hasym; [by eapply Forall_lookup_1..|done].
        * rewrite decide_False by (unfold par in Hpc; lia). intros Hy. by apply (Hmin Ho HP c y).
      + intros Hx. rewrite decide_False by congruence. destruct (decide (c = i)) as [->|Hci].
        * intros [= <-]. apply (HB j x xj); try done; lia.
        * intros Hy. apply (HH c x y); try done. congruence.
    - intros c x y Hj0 Hp Hc Hpc. rewrite Hpj in Hp |- *. rewrite !swapped_lookup by lia.
      rewrite decide_False by done. rewrite decide_True by done. intros [= <-].
      rewrite !decide_False by (unfold par in *; lia). intros Hy.
      apply (HH c xj y); [done|rewrite Hpc; unfold par in Hpj; lia| |by rewrite Hpc|done]. congruence.
  Qed.

  Lemma h_up_ok fuel h (j : nat) :
    (j < length h)%nat -> (j < fuel)%nat ->
    exists h', h_up less fuel h (Z.of_nat j) = Ok h' /\ h' ≡ₚ h /\
      (order_ok -> Forall P h ->
       (forall c x y, (0 < c < length h)%nat -> c <> j -> h !! par c = Some x -> h !! c = Some y -> le x y) ->
       bridge (length h) 0 j h ->
       heap_except (length h) 0 None h').
  Proof.
    revert h j. induction fuel as [|fuel IH]; intros h j Hj Hf; [lia|].
    cbn [h_up]. 
    destruct (Z.eqb_spec (Z.quot (Z.of_nat j - 1) 2) (Z.of_nat j)) as [E|E].
    { assert (j = 0)%nat as -> by lia. exists h. split; [done|]. split; [done|].
      intros Ho HP HH HB c x y Hc _ _ Hx Hy. apply (HH c x y); try done. lia. }
    replace (Z.quot (Z.of_nat j - 1) 2) with (Z.of_nat (par j)) in * by (unfold par; lia).
    set (i := par j) in *.
    assert (Hij : (i < j)%nat) by (unfold i, par in *; lia).
    destruct (lookup_lt_is_Some_2 h j) as [xj Hxj]; [lia|].
    destruct (lookup_lt_is_Some_2 h i) as [xi Hxi]; [lia|].
    unfold h_less. rewrite (sget_nat _ _ _ Hxj), (sget_nat _ _ _ Hxi). cbn [mbind res_bind].
    destruct (less xj xi) eqn:El; cbn [negb].
    2:{ exists h. split; [done|]. split; [done|].
        intros Ho HP HH HB c x y Hc _ _ Hx Hy. destruct (decide (c = j)) as [->|]; [|by apply (HH c x y)].
        fold i in Hx. rewrite Hxi in Hx. rewrite Hxj in Hy. injection Hx as <-. injection Hy as <-. done. }
    rewrite (h_swap_ok h i j xi xj) by done. cbn [mbind res_bind].
    destruct (IH (swapped h i j xi xj) i) as (h' & HE' & Hperm & HH').
    { rewrite swapped_length; lia. } { lia. }
    exists h'. split; [done|]. split; [by rewrite Hperm, swapped_perm|].
    rewrite swapped_length in HH'.
    intros Ho HP HH HB. apply HH'; clear HH'; [done|by rewrite swapped_perm| |].
    - intros c x y Hc Hci. rewrite !swapped_lookup by lia.
      destruct (decide (par c = j)) as [Hpc|Hpc].
      + intros [= <-]. rewrite !decide_False by (unfold par in *; lia). intros Hy.
        apply (HB c xi y); try done; try lia.
      + destruct (decide (par c = i)) as [Hpi|Hpi].
        * intros [= <-]. destruct (decide (c = j)) as [->|Hcj].
          -- intros [= <-]. destruct Ho as [Hasym _]. apply Hasym; [by eapply Forall_lookup_1..|done].
          -- rewrite decide_False by done. intros Hy.
             assert (Hle : le xj xi). { destruct Ho as [Hasym _]. apply Hasym; [by eapply Forall_lookup_1..|done]. }
             destruct Ho as [_ Htr]. apply (Htr xj xi y); [by eapply Forall_lookup_1..|done|].
             apply (HH c xi y); try done. by rewrite Hpi.
        * intros Hx. rewrite decide_False by (intros ->; by apply Hpi). rewrite decide_False by done.
          intros Hy. apply (HH c x y); try done. intros ->. by apply Hpi.
    - intros c x y Hi0 _ Hc Hpc. rewrite !swapped_lookup by lia.
      rewrite !decide_False by (unfold par; lia). intros Hx.
      assert (Hxi' : le x xi). { apply (HH i x xi); try done; lia. }
      destruct (decide (c = j)) as [->|Hcj].
      + intros [= <-]. done.
      + rewrite decide_False by (unfold par in Hpc; lia). intros Hy.
        destruct Ho as [_ Htr]. apply (Htr x xi y); [by eapply Forall_lookup_1..|done|].
        apply (HH c xi y); try done. by rewrite Hpc.
  Qed.

  Definition heap h : Prop := heap_except (length h) 0 None h.

  Lemma heap_root h r : order_ok -> Forall P h -> heap h -> h !! O = Some r ->
    forall c y, h !! c = Some y -> le r y.
  Proof.
    intros Ho HP HH Hr. induction c as [c IH] using lt_wf_ind. intros y Hy.
    pose proof (lookup_lt_Some _ _ _ Hy).
    destruct (decide (c = 0)%nat) as [->|Hc].
    - rewrite Hr in Hy. injection Hy as <-. unfold le. destruct (less r r) eqn:E; [|done].
      destruct Ho as [Hasym _].
      pose proof (Hasym r r ltac:(by eapply Forall_lookup_1) ltac:(by eapply Forall_lookup_1) E) as HE.
      unfold le in HE. congruence.
    - destruct (lookup_lt_is_Some_2 h (par c)) as [x Hx]; [unfold par; lia|].
      destruct Ho as [Hasym Htr].
      apply (Htr r x y); [by eapply Forall_lookup_1..| |].
      + apply (IH (par c)); [unfold par; lia|done].
      + apply (HH c x y); try done; lia.
  Qed.

  Lemma h_Init_ok h :
    exists h', h_Init less h = Ok h' /\ h' ≡ₚ h /\ (order_ok -> Forall P h -> heap h').
  Proof.
    unfold h_Init.
    set (n := length h). set (m := Z.to_nat (Z.quot (Z.of_nat n) 2)).
    assert (Hseq : seqZ 0 (Z.quot (Z.of_nat n) 2) = map Z.of_nat (seq 0 m)).
    { apply list_eq. intros i. destruct (decide (i < m)%nat) as [Hi|Hi].
      - rewrite list_lookup_fmap, lookup_seq_lt by done. simpl. apply lookup_seqZ. lia.
      - rewrite list_lookup_fmap, lookup_seq_ge by lia. simpl. apply lookup_seqZ_ge. lia. }
    rewrite Hseq, <- map_rev.
    assert (HG : forall k h1, (k <= m)%nat -> h1 ≡ₚ h -> (order_ok -> Forall P h -> heap_except n k None h1) ->
      exists h', foldM (fun h i => h_down less (S (length h)) h i (Z.of_nat n)) h1 (map Z.of_nat (rev (seq 0 k))) = Ok h' /\
        h' ≡ₚ h /\ (order_ok -> Forall P h -> heap_except n 0 None h')).
    { induction k as [|k IH]; intros h1 Hk Hp HH.
      - exists h1. done.
      - rewrite seq_S, rev_app_distr. cbn [rev app map foldM Nat.add].
        pose proof (Permutation_length Hp) as Hl.
        destruct (h_down_ok (S (length h1)) h1 k n k) as (h2 & HE & Hp2 & _ & HH2); [lia..|].
        rewrite HE. apply IH; [lia|by rewrite Hp2|].
        intros Ho HP. apply HH2; [done|by rewrite Hp| |].
        + intros c x y Hc Hpc Hhole Hx Hy. apply (HH Ho HP c x y); try done.
          assert (par c <> k) by congruence. lia.
        + intros c x y Hk0 Hpk. unfold par in Hpk. lia. }
    destruct (HG m h) as (h' & HE & Hp & HH); [done|done| |].
    { intros _ _ c x y Hc Hpc. unfold par in Hpc. lia. }
    exists h'. split; [done|]. split; [done|]. intros Ho HP. unfold heap.
    rewrite (Permutation_length Hp). by apply HH.
  Qed.

  Lemma h_Push_ok h x :
    exists h', h_Push less h x = Ok h' /\ h' ≡ₚ x :: h /\
      (order_ok -> Forall P (x :: h) -> heap h -> heap h').
  Proof.
    unfold h_Push. set (h1 := h ++ [x]).
    assert (Hl : length h1 = S (length h)) by (unfold h1; rewrite app_length; simpl; lia).
    assert (Hp1 : h1 ≡ₚ x :: h) by (unfold h1; by rewrite Permutation_app_comm).
    replace (Z.of_nat (length h1) - 1) with (Z.of_nat (length h)) by lia.
    destruct (h_up_ok (S (length h1)) h1 (length h)) as (h' & HE & Hp & HH); [lia..|].
    exists h'. split; [done|]. split; [by rewrite Hp|]. intros Ho HP HI.
    unfold heap. rewrite (Permutation_length Hp). apply HH; [done|by rewrite Hp1| |].
    - intros c a b Hc Hcl Ha Hb. unfold h1 in Ha, Hb.
      rewrite lookup_app_l in Ha by (unfold par; lia). rewrite lookup_app_l in Hb by lia.
      apply (HI c a b); try done; lia.
    - intros c a b H0 _ Hc Hpc. unfold par in Hpc. lia.
  Qed.

  Lemma h_Pop_ok h : h <> [] ->
    exists r h', h_Pop less h = Ok (r, h') /\ r :: h' ≡ₚ h /\
      (order_ok -> Forall P h -> heap h -> heap h' /\ forall y, y ∈ h -> le r y).
  Proof.
    intros Hne. unfold h_Pop.
    assert (Hlen : (0 < length h)%nat) by (destruct h; simpl; [done|lia]).
    set (n := (length h - 1)%nat).
    replace (Z.of_nat (length h) - 1) with (Z.of_nat n) by lia.
    destruct (lookup_lt_is_Some_2 h O) as [r Hr]; [lia|].
    destruct (lookup_lt_is_Some_2 h n) as [l Hl]; [lia|].
    pose proof (h_swap_ok h O n r l Hr Hl) as HS. change (Z.of_nat 0) with 0 in HS. rewrite HS. cbn [mbind res_bind].
    pose proof (swapped_perm h O n r l Hr Hl) as Hsp. pose proof (swapped_length h O n r l) as Hsl.
    set (h1 := swapped h O n r l) in *.
    destruct (h_down_ok (S (length h1)) h1 0 n 0) as (h2 & HE & Hp2 & Hkeep & HH); [lia..|].
    change (Z.of_nat 0) with 0 in HE. rewrite HE. cbn [mbind res_bind]. unfold h_pop_last.
    pose proof (Permutation_length Hp2) as Hl2.
    assert (Hlast : h2 !! n = Some r).
    { rewrite Hkeep by lia. unfold h1, swapped. rewrite list_lookup_insert; [done|]. rewrite insert_length. lia. }
    replace (Z.of_nat (length h2) - 1) with (Z.of_nat n) by lia.
    rewrite (sget_nat _ _ _ Hlast). cbn [mbind res_bind].
    exists r, (take (length h2 - 1) h2). split; [done|].
    assert (Hdec : h2 = take (length h2 - 1) h2 ++ [r]).
    { rewrite <- (take_drop (length h2 - 1) h2) at 1. f_equal.
      replace (length h2 - 1)%nat with n by lia. rewrite (drop_S _ _ _ Hlast).
      rewrite drop_ge by lia. done. }
    split.
    { rewrite <- Hsp, <- Hp2. rewrite Hdec at 3. rewrite Permutation_app_comm. done. }
    intros Ho HP HI. split.
    - unfold heap. rewrite take_length. replace (_ `min` _)%nat with n by lia.
      assert (Hh2 : heap_except n 0 None h2).
      { apply HH; [done|by rewrite Hsp| |].
        - intros c x y Hc _ Hhole Hx Hy. assert (par c <> 0)%nat by congruence.
          unfold h1, swapped in Hx, Hy.
          rewrite !list_lookup_insert_ne in Hx by (unfold par in *; lia).
          rewrite !list_lookup_insert_ne in Hy by (unfold par in *; lia).
          apply (HI c x y); try done; lia.
        - intros c x y H0. lia. }
      intros c x y Hc Hp _ Hx Hy. rewrite lookup_take in Hx by (unfold par; lia).
      rewrite lookup_take in Hy by lia. by apply (Hh2 c x y).
    - intros y Hy. apply elem_of_list_lookup in Hy as [c Hc]. by apply (heap_root h r Ho HP HI Hr c y).
  Qed.
End heap.
