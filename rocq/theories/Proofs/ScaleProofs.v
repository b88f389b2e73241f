(** Hashes see only the order of the values, or their direction. *)
From Verif.Model Require Import Dwta Minhash Srp.
From Verif.Spec Require Import HashSpec ScaleSpec.
From Verif.Proofs Require Import BaseProofs WtaProofs DwtaProofs MinhashProofs.
From Coq Require Import Lia.
Local Open Scope Z_scope.

(** * Running two programs side by side *)
Definition rres {A B} (R : A -> B -> Prop) (r : res A) (r' : res B) : Prop :=
  match r, r' with Ok a, Ok b => R a b | Panic p, Panic q => p = q | _, _ => False end.
Lemma rres_eq {A} (r r' : res A) : rres eq r r' -> r = r'.
Proof. destruct r, r'; simpl; intros H; [by rewrite H|done|done|by rewrite H]. Qed.
Lemma rres_refl {A} (R : A -> A -> Prop) r : (forall a, R a a) -> rres R r r.
Proof. destruct r; simpl; auto. Qed.
Lemma rres_bind {A B C D} (R : A -> B -> Prop) (Q : C -> D -> Prop) r r' f f' :
  rres R r r' -> (forall a b, R a b -> rres Q (f a) (f' b)) -> rres Q (r ≫= f) (r' ≫= f').
Proof. destruct r, r'; simpl; try done. intros H HF. by apply HF. Qed.
Lemma rres_fold {S T X Y} (R : S -> T -> Prop) (K : X -> Y -> Prop) f f' xs ys s t :
  Forall2 K xs ys -> R s t -> (forall s t x y, R s t -> K x y -> rres R (f s x) (f' t y)) ->
  rres R (foldM f s xs) (foldM f' t ys).
Proof.
  intros HK HR HF. revert s t HR. induction HK as [|x y xs ys Hxy HK IH]; intros s t HR; cbn [foldM]; [done|].
  specialize (HF s t x y HR Hxy) as H1. destruct (f s x), (f' t y); try done. by apply IH.
Qed.
Lemma rres_mapM {A B C D} (K : A -> B -> Prop) (R : C -> D -> Prop) f f' xs ys :
  Forall2 K xs ys -> (forall x y, K x y -> rres R (f x) (f' y)) -> rres (Forall2 R) (mapM_res f xs) (mapM_res f' ys).
Proof.
  intros HK HF. induction HK as [|x y xs ys Hxy HK IH]; cbn [mapM_res]; [constructor|].
  specialize (HF x y Hxy). destruct (f x), (f' y); try done.
  destruct (mapM_res f xs), (mapM_res f' ys); try done. by constructor.
Qed.
Lemma Forall2_same {A} (xs : list A) : Forall2 eq xs xs.
Proof. by apply Forall_Forall2_diag, Forall_true. Qed.
Lemma rres_sget {A B} (R : A -> B -> Prop) xs ys i : Forall2 R xs ys -> rres R (sget xs i) (sget ys i).
Proof.
  intros H. pose proof (Forall2_length _ _ _ H) as HL. unfold sget.
  destruct (i <? 0); [done|]. destruct (xs !! Z.to_nat i) eqn:E1, (ys !! Z.to_nat i) eqn:E2; simpl; try done.
  - by apply (Forall2_lookup_lr _ _ _ _ _ _ H E1 E2).
  - apply lookup_lt_Some in E1. apply lookup_ge_None in E2. lia.
  - apply lookup_lt_Some in E2. apply lookup_ge_None in E1. lia.
Qed.
Lemma rres_sset {A B} (R : A -> B -> Prop) xs ys i a b : Forall2 R xs ys -> R a b -> rres (Forall2 R) (sset xs i a) (sset ys i b).
Proof.
  intros H HR. pose proof (Forall2_length _ _ _ H) as HL. unfold sset. rewrite HL. destruct (i <? 0); simpl; [done|].
  destruct (decide _); simpl; [|done]. by apply Forall2_insert.
Qed.
Lemma rres_make {A B} (R : A -> B -> Prop) a b n : R a b -> rres (Forall2 R) (make_slice a n) (make_slice b n).
Proof. intros H. unfold make_slice. destruct (n <? 0); simpl; [done|]. by apply Forall2_replicate. Qed.
Lemma Forall2_indexed {A B} (R : A -> B -> Prop) xs ys : Forall2 R xs ys ->
  Forall2 (fun p q => p.1 = q.1 /\ R p.2 q.2) (indexed xs) (indexed ys).
Proof.
  intros H. apply Forall2_same_length_lookup_2.
  - rewrite !indexed_length. by eapply Forall2_length.
  - intros k [i x] [j y] H1 H2. apply indexed_lookup in H1 as [-> H1]. apply indexed_lookup in H2 as [-> H2].
    split; [done|]. by apply (Forall2_lookup_lr _ _ _ _ _ _ H H1 H2).
Qed.

(** * Pairs of values at the same place *)
Definition paired (xs ys : list float64) (x y : float64) : Prop := exists a, xs !! a = Some x /\ ys !! a = Some y.
Lemma paired_all xs ys : length xs = length ys -> Forall2 (paired xs ys) xs ys.
Proof. intros H. apply Forall2_same_length_lookup_2; [done|]. intros i x y H1 H2. by exists i. Qed.
Lemma paired_lt xs ys x y a b : same_order xs ys -> paired xs ys x a -> paired xs ys y b -> fltb x y = fltb a b.
Proof. intros [_ H] (i & H1 & H2) (j & H3 & H4). by apply (H i j). Qed.

(** * Densified WTA *)
Lemma densify_rel {A B} (R : A -> B -> Prop) d e e' fl fl' xs ys :
  (forall a b, R a b -> e a = e' b) -> (forall a b, R a b -> R (fl a) (fl' b)) -> Forall2 R xs ys ->
  rres (Forall2 R) (densify d e fl xs) (densify d e' fl' ys).
Proof.
  intros HE HF HL. unfold densify. eapply rres_mapM; [by apply Forall2_indexed|].
  intros [i x] [j y] [E H]. simpl in E, H. subst j. generalize 1%Z. revert x y H. generalize 101%nat.
  intros n. induction n as [|n IH]; intros x y H c; cbn [probe_loop]; rewrite <- (HE _ _ H); destruct (e x); try done.
  eapply rres_bind; [eapply rres_bind; [apply (rres_refl eq); done|intros ? ? <-; by apply rres_sget]|].
  intros a b Hab. destruct (100 <? c); [by apply HF|]. by apply IH.
Qed.

Lemma dwta_dense_order dw data data' topK : same_order data data' -> same_eligible data data' ->
  dwta_GetHashEasy dw data topK = dwta_GetHashEasy dw data' topK.
Proof.
  intros HO HE. unfold dwta_GetHashEasy. destruct (make_slice minInt64 _) as [hs|] eqn:E1; cbn [mbind res_bind]; [|done].
  destruct (make_slice fMinInt64 _) as [vs|] eqn:E2; cbn [mbind res_bind]; [|done].
  apply rres_eq. set (V := fun x y : float64 => (x = fMinInt64 /\ y = fMinInt64) \/ paired data data' x y).
  assert (HV : Forall2 V vs vs).
  { unfold make_slice in E2. destruct (_ <? 0); [done|]. injection E2 as <-. apply Forall2_replicate. by left. }
  eapply (rres_bind (fun s t => s.1 = t.1 /\ Forall2 V s.2 t.2)).
  - eapply (rres_fold _ eq); [apply Forall2_same|done|]. intros s t p ? Hst <-.
    eapply rres_fold; [apply Forall2_indexed, paired_all, HO|exact Hst|].
    intros [h1 v1] [h2 v2] [i x] [j y] [Eh Ev] [Ei Exy]. simpl in Eh, Ev, Ei, Exy. subst h2 j. unfold dwta_scan_easy.
    destruct (sget (dw_indices dw) _) as [bin|]; cbn [mbind res_bind]; [|done].
    destruct (bin <? _); [|done].
    eapply rres_bind; [by apply (rres_sget V)|]. intros a b Hab.
    assert (EL : fltb a x = fltb b y).
    { destruct Hab as [[-> ->]|Hab]; [|by eapply paired_lt]. destruct Exy as (k & K1 & K2). by eapply HE. }
    rewrite <- EL. destruct (fltb a x); [|done].
    eapply rres_bind; [apply (rres_sset V); [done|by right]|]. intros v3 v4 H34.
    destruct (sget (dw_pos dw) _); cbn [mbind res_bind]; [|done].
    destruct (sset h1 _ _); cbn [mbind res_bind]; done.
  - intros [h1 v1] [h2 v2] [E _]. simpl in E. subst h2. by apply rres_refl.
Qed.

Lemma dwta_sparse_order dw data data' : same_order (map iv_value data) (map iv_value data') ->
  dwta_GetHash dw data = dwta_GetHash dw data'.
Proof.
  intros HO. unfold dwta_GetHash. apply rres_eq.
  set (W := paired (map iv_value data) (map iv_value data')).
  set (I := fun a b : item => it_hash a = it_hash b /\ it_init a = it_init b /\ (it_init a = true -> W (it_value a) (it_value b))).
  eapply (rres_bind (Forall2 I)); [by apply rres_make|]. intros xs ys Hxy.
  eapply (rres_bind (Forall2 I)).
  - eapply (rres_fold _ eq); [apply Forall2_same|done|]. intros s t p ? Hst <-.
    eapply (rres_fold _ (fun p q => p.1 = q.1 /\ W (iv_value p.2) (iv_value q.2))); [|exact Hst|].
    { apply (Forall2_indexed (fun p q => W (iv_value p) (iv_value q))).
      destruct HO as [HL _]. pose proof (paired_all _ _ HL) as HP. by apply Forall2_fmap_1 in HP. }
    intros u v [i x] [j y] Huv [E Exy]. simpl in E, Exy. subst j. unfold dwta_scan_item.
    destruct (sget (dw_indices dw) _) as [bin|]; cbn [mbind res_bind]; [|done].
    destruct (bin <? _); [|done].
    eapply rres_bind; [by apply (rres_sget I)|]. intros a b (E1 & E2 & E3).
    assert (EL : negb (it_init a) || fltb (it_value a) (iv_value x) = negb (it_init b) || fltb (it_value b) (iv_value y)).
    { rewrite <- E2. destruct (it_init a); [|done]. simpl. eapply paired_lt; [exact HO|by apply E3|exact Exy]. }
    rewrite <- EL. destruct (_ || _); [|done].
    destruct (sget (dw_pos dw) _); cbn [mbind res_bind]; [|done]. apply rres_sset; [done|]. by split.
  - intros s t Hst. eapply (rres_bind (Forall2 I)).
    + apply densify_rel; [|intros a b (E1 & E2 & E3); by split|done]. intros a b (E1 & E2 & E3). by rewrite E2.
    + intros a b Hab. simpl. induction Hab as [|x y l k (E & _) _ IH]; [done|]. cbn [map]. by rewrite E, IH.
Qed.

(** * Minhash over the kept entries *)
Section heaps.
  Context {A B : Type} (l1 : A -> A -> bool) (l2 : B -> B -> bool) (R : A -> B -> Prop).
  Context (HL : forall a b c d, R a b -> R c d -> l1 a c = l2 b d).
  Lemma h_less_rel h k i j : Forall2 R h k -> rres eq (h_less l1 h i j) (h_less l2 k i j).
  Proof using HL. intros H. eapply rres_bind; [by apply (rres_sget R)|]. intros a b Hab. eapply rres_bind; [by apply (rres_sget R)|]. intros c d Hcd. by apply HL. Qed.
  Lemma h_swap_rel h k i j : Forall2 R h k -> rres (Forall2 R) (h_swap h i j) (h_swap k i j).
  Proof. intros H. eapply rres_bind; [by apply (rres_sget R)|]. intros a b Hab. eapply rres_bind; [by apply (rres_sget R)|]. intros c d Hcd.
    eapply rres_bind; [by apply (rres_sset R)|]. intros h' k' H'. by apply rres_sset. Qed.
  Lemma h_up_rel n h k j : Forall2 R h k -> rres (Forall2 R) (h_up l1 n h j) (h_up l2 n k j).
  Proof using HL. revert h k j. induction n as [|n IH]; intros h k j H; cbn [h_up]; [done|]. destruct (_ =? _); [done|].
    eapply rres_bind; [by apply h_less_rel|]. intros b ? <-. destruct b; simpl; [|done].
    eapply rres_bind; [by apply h_swap_rel|]. intros h' k' H'. by apply IH. Qed.
  Lemma h_down_rel n h k i m : Forall2 R h k -> rres (Forall2 R) (h_down l1 n h i m) (h_down l2 n k i m).
  Proof using HL. revert h k i. induction n as [|n IH]; intros h k i H; cbn [h_down]; [done|]. destruct (_ || _); [done|].
    eapply (rres_bind eq).
    { destruct (_ <? m); [|done]. eapply rres_bind; [by apply h_less_rel|]. by intros b ? <-. }
    intros j ? <-. eapply rres_bind; [by apply h_less_rel|]. intros b ? <-. destruct b; simpl; [|done].
    eapply rres_bind; [by apply h_swap_rel|]. intros h' k' H'. by apply IH. Qed.
  Lemma h_Init_rel h k : Forall2 R h k -> rres (Forall2 R) (h_Init l1 h) (h_Init l2 k).
  Proof using HL. intros H. unfold h_Init. rewrite <- (Forall2_length _ _ _ H).
    eapply (rres_fold _ eq); [apply Forall2_same|done|]. intros s t x ? Hst <-. rewrite <- (Forall2_length _ _ _ Hst). by apply h_down_rel. Qed.
  Lemma h_Push_rel h k x y : Forall2 R h k -> R x y -> rres (Forall2 R) (h_Push l1 h x) (h_Push l2 k y).
  Proof using HL. intros H Hxy. unfold h_Push. rewrite !app_length, (Forall2_length _ _ _ H). cbn [length].
    apply h_up_rel. apply Forall2_app; [done|]. by constructor. Qed.
  Lemma h_pop_last_rel h k : Forall2 R h k -> rres (fun p q => R p.1 q.1 /\ Forall2 R p.2 q.2) (h_pop_last h) (h_pop_last k).
  Proof. intros H. unfold h_pop_last. rewrite <- (Forall2_length _ _ _ H). eapply rres_bind; [by apply (rres_sget R)|].
    intros a b Hab. simpl. split; [done|]. by apply Forall2_take. Qed.
  Lemma h_Pop_rel h k : Forall2 R h k -> rres (fun p q => R p.1 q.1 /\ Forall2 R p.2 q.2) (h_Pop l1 h) (h_Pop l2 k).
  Proof using HL. intros H. unfold h_Pop. rewrite <- (Forall2_length _ _ _ H). eapply rres_bind; [by apply h_swap_rel|].
    intros h' k' H'. rewrite <- (Forall2_length _ _ _ H'). eapply rres_bind; [by apply h_down_rel|]. intros h2 k2 H2. by apply h_pop_last_rel. Qed.
End heaps.

Lemma minhash_order m binIds data data' spare spare' topK : length data = length data' ->
  same_order (data ++ spare) (data' ++ spare') ->
  mn_GetHashEasyDense m binIds data spare topK = mn_GetHashEasyDense m binIds data' spare' topK.
Proof.
  intros Hlen HO. unfold mn_GetHashEasyDense. apply rres_eq.
  set (W := paired (data ++ spare) (data' ++ spare')).
  set (Q := fun a b : QPair => q_index a = q_index b /\ W (q_value a) (q_value b)).
  assert (HQ : forall a b c d, Q a b -> Q c d -> q_less a c = q_less b d).
  { intros a b c d [_ H1] [_ H2]. unfold q_less. by eapply paired_lt. }
  eapply (rres_bind (Forall2 Q)).
  - unfold mn_heap_dense, make_slice, slice_to. destruct (topK <? 0) eqn:EK; cbn [mbind res_bind orb]; [done|].
    destruct HO as [HL HO']. rewrite <- HL. destruct (_ <? topK) eqn:ET; cbn [mbind res_bind]; [done|].
    set (f1 := take (Z.to_nat topK) (data ++ spare)). set (f2 := take (Z.to_nat topK) (data' ++ spare')).
    assert (L1 : Z.to_nat topK = length f1) by (unfold f1; rewrite take_length; lia).
    assert (L2 : Z.to_nat topK = length f2) by (unfold f2; rewrite take_length; lia).
    replace (replicate (Z.to_nat topK) (mkQ 0 fzero)) with (replicate (length f1) (mkQ 0 fzero)) at 1 by (by rewrite L1).
    replace (replicate (Z.to_nat topK) (mkQ 0 fzero)) with (replicate (length f2) (mkQ 0 fzero)) by (by rewrite L2).
    rewrite !heap_fill. cbn [mbind res_bind].
    eapply (rres_bind (Forall2 Q)).
    { apply h_Init_rel; [done|]. unfold entries_of. apply Forall2_fmap.
      eapply Forall2_impl; [apply (Forall2_indexed W)|].
      - apply Forall2_take. by apply paired_all.
      - by intros [i x] [j y] [E H]. }
    intros h k Hhk. rewrite <- Hlen. eapply (rres_fold _ eq); [apply Forall2_same|done|].
    intros s t x ? Hst <-. eapply (rres_bind W).
    { apply rres_sget. pose proof (paired_all _ _ HL) as HP. apply Forall2_app_inv in HP as [HP _]; done. }
    intros a b Hab. eapply rres_bind; [by apply (h_Push_rel _ _ Q)|]. intros u v Huv.
    eapply rres_bind; [by apply (h_Pop_rel _ _ Q)|]. by intros [? ?] [? ?] [_ ?].
  - intros pq pq' Hpq. unfold mn_hash_kept. destruct (make_slice _ _) as [hs|]; cbn [mbind res_bind]; [|done].
    eapply (rres_bind (fun s t => s.1 = t.1 /\ Forall2 Q s.2 t.2)).
    + eapply (rres_fold _ eq); [apply Forall2_same|done|]. intros [h1 s] [h2 t] x ? [Eh Hst] <-. simpl in Eh, Hst. subst h2.
      eapply rres_bind; [by apply (h_pop_last_rel Q)|]. intros [a s'] [b t'] [[Ei _] Hst']. simpl in Ei, Hst'.
      rewrite <- Ei. destruct (mn_put _ _ _); cbn [mbind res_bind]; done.
    + intros [h1 s] [h2 t] [E _]. simpl in E. subst h2. by apply rres_refl.
Qed.
