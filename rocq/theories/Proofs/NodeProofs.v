(** Node operations with the node's own cowId: they update the node in place and have the
    reference effect; panics coincide. *)
From Verif.Proofs Require Export MemProofs.
From Coq Require Import Lia ZifyBool ZifyNat.

(** A memory computation has the outcome of a reference computation. *)
Definition refines {A B} (o : res (A * mem)) (r : res B) (Q : B -> A -> mem -> Prop) : Prop :=
  match r with
  | Ok b => exists a m', o = Ok (a, m') /\ Q b a m'
  | Panic p => o = Panic p
  end.

Lemma refines_bind {A B A' B'} (c : M A) (f : A -> M A') (r : res B) (g : B -> res B') m Q Q' :
  refines (c m) r Q ->
  (forall b a m', Q b a m' -> refines (f a m') (g b) Q') ->
  refines ((c ≫= f) m) (r ≫= g) Q'.
Proof.
  intros H Hf. destruct r as [b|p]; cbn [refines mbind res_bind] in *.
  - destruct H as (a & m' & H & HQ). rewrite (bindM_Ok _ _ _ _ _ H). by apply Hf.
  - by rewrite (bindM_Panic _ _ _ _ H).
Qed.

(** a step of the program that the reference does not have *)
Lemma refines_skip {A A' B'} (c : M A) (f : A -> M A') (r : res B') m a m1 Q :
  c m = Ok (a, m1) -> refines (f a m1) r Q -> refines ((c ≫= f) m) r Q.
Proof. intros H. by rewrite (bindM_Ok _ _ _ _ _ H). Qed.

Lemma refines_ret {A B} (a : A) (b : B) m (Q : B -> A -> mem -> Prop) :
  Q b a m -> refines (mret (M := M) a m) (Ok b) Q.
Proof. intros. exists a, m. done. Qed.

Lemma refines_lift {A} (r : res A) m : refines (lift r m) r (fun b a m' => a = b /\ m' = m).
Proof. destruct r; cbn; eauto. Qed.

Lemma refines_impl {A B} (o : res (A * mem)) (r : res B) (Q Q' : B -> A -> mem -> Prop) :
  refines o r Q -> (forall b a m, Q b a m -> Q' b a m) -> refines o r Q'.
Proof. destruct r as [b|p]; cbn; [|done]. intros (x & m' & ? & ?) HQ. eauto 10. Qed.

Lemma refines_bind_inv {A B A'} (c : M A) (f : A -> M A') (r : res B) m Q Q' :
  refines (c m) r Q ->
  (forall b a m', Q b a m' -> refines (f a m') (Ok b) Q') ->
  refines ((c ≫= f) m) r Q'.
Proof.
  intros H Hf. destruct r as [b|p]; cbn [refines] in *.
  - destruct H as (a & m' & H & HQ). rewrite (bindM_Ok _ _ _ _ _ H). by apply Hf.
  - by rewrite (bindM_Panic _ _ _ _ H).
Qed.

Lemma refines_bind_ret {A B B'} (c : M A) (r : res B) (g : B -> B') m (Q : B -> A -> mem -> Prop) (Q' : B' -> A -> mem -> Prop) :
  refines (c m) r Q -> (forall b a m', Q b a m' -> Q' (g b) a m') ->
  refines (c m) (b ← r; Ok (g b)) Q'.
Proof. destruct r as [b|p]; cbn; [|done]. intros (x & m' & ? & ?) HQ. eauto 10. Qed.

Lemma bindM_Ok_or {A A'} (c : M A) (f : A -> M A') m (r : res A) :
  c m = match r with Ok x => Ok (x, m) | Panic p => Panic p end ->
  (c ≫= f) m = match r with Ok x => f x m | Panic p => Panic p end.
Proof. unfold mbind, M_bind. intros ->. by destruct r. Qed.

(** A loop with an invariant. *)
Lemma refines_fold {S S' A} (f : S -> A -> M S) (g : S' -> A -> res S') (Q : S' -> S -> mem -> Prop) xs :
  (forall b a m x, x ∈ xs -> Q b a m -> refines (f a x m) (g b x) Q) ->
  forall b a m, Q b a m -> refines (mfold f a xs m) (foldM g b xs) Q.
Proof.
  intros Hf. induction xs as [|x xs IH]; intros b a m HQ; cbn [mfold foldM].
  - by apply refines_ret.
  - pose proof (Hf b a m x ltac:(left) HQ) as H.
    destruct (g b x) as [b'|p]; cbn [refines] in H.
    + destruct H as (a' & m' & H & HQ'). rewrite (bindM_Ok _ _ _ _ _ H).
      apply IH; [|done]. intros; apply Hf; [by right|done].
    + by rewrite (bindM_Panic _ _ _ _ H).
Qed.

Section Owned.
  Context (m : mem) (c : Z) (n : nat) (ly : Lay) (v : NodeView) (R : rep m c n ly v).

  Lemma clone_id : node_cloneIfNeeded c n m = Ok (n, m).
  Proof.
    unfold node_cloneIfNeeded. erewrite bindM_Ok by (apply load_Ok, R). cbn [n_cowId]. by rewrite Z.eqb_refl.
  Qed.

  Lemma own_base_id : own_base c n m = Ok (ly_base ly, m).
  Proof.
    unfold own_base, base_cloneIfNeeded. erewrite bindM_Ok by (apply load_Ok, R).
    erewrite bindM_Ok. 2:{ erewrite bindM_Ok by (apply load_Ok, R). cbn [n_base b_cowId]. by rewrite Z.eqb_refl. }
    cbn [n_cowId n_base n_train].
    erewrite bindM_Ok by (eapply store_Ok, R).
    unfold upd_node. rewrite list_insert_id by apply R. by destruct m.
  Qed.

  Lemma get_base_rep : exists b, get_base n m = Ok (b, m) /\
    b = mkBase c (v_type v) (v_batch v) (v_id v) (ly_w ly) (ly_w ly) (ly_mom ly) (ly_vel ly) (ly_t ly)
            (v_bias v) (v_tBias v) (v_momBias v) (v_velBias v) (v_mirrorBias v).
  Proof.
    eexists. split; [|done]. unfold get_base. erewrite bindM_Ok by (apply load_Ok, R). apply load_Ok, R.
  Qed.

  Lemma load_base_rep :
    load_base (ly_base ly) m = Ok (mkBase c (v_type v) (v_batch v) (v_id v) (ly_w ly) (ly_w ly) (ly_mom ly) (ly_vel ly) (ly_t ly)
            (v_bias v) (v_tBias v) (v_momBias v) (v_velBias v) (v_mirrorBias v), m).
  Proof. apply load_Ok, R. Qed.

  Lemma slots_length : length (ly_trs ly) = length (v_slots v).
  Proof. eapply Forall2_length, R. Qed.

  Lemma slot_of i s : sget (v_slots v) i = Ok s ->
    exists l, sget (ly_trs ly) i = Ok l /\ m_tr m !! l = Some (mkTrain c (s_delta s) (s_act s) (s_active s)).
  Proof.
    intros Hs. apply sget_Ok in Hs as [Hi Hs].
    destruct (Forall2_lookup_r _ _ _ _ _ (rep_slots _ _ _ _ _ R) Hs) as (l & Hl & E).
    exists l. split; [|done]. apply sget_Ok. done.
  Qed.

  Lemma slot_panic i p : sget (v_slots v) i = Panic p -> sget (ly_trs ly) i = Panic p.
  Proof.
    unfold sget. destruct (i <? 0); [by intros [= ->]|]. destruct (v_slots v !! Z.to_nat i) eqn:E; [done|].
    apply lookup_ge_None in E. rewrite lookup_ge_None_2; [by intros [= ->]|]. rewrite slots_length. done.
  Qed.

  Lemma own_train_rep i :
    refines (own_train c n i m) (sget (v_slots v) i) (fun s l m' => m' = m /\ sget (ly_trs ly) i = Ok l /\
      m_tr m !! l = Some (mkTrain c (s_delta s) (s_act s) (s_active s))).
  Proof.
    unfold own_train, train_cloneIfNeeded.
    eapply refines_skip; [apply load_Ok, R|]. cbn [n_train].
    destruct (sget (v_slots v) i) as [s|p] eqn:E; cbn [refines].
    - destruct (slot_of _ _ E) as (l & Hl & Et). exists l, m. split; [|done].
      erewrite bindM_Ok. 2:{ rewrite (tget_telems _ _ _ _ (rep_trs _ _ _ _ _ R)). by rewrite Hl. }
      erewrite bindM_Ok. 2:{ erewrite bindM_Ok by (apply load_Ok, Et). cbn [tr_cowId]. by rewrite Z.eqb_refl. }
      erewrite bindM_Ok by (eapply tset_same; [apply R|exact Hl]). done.
    - erewrite bindM_Panic; [done|]. rewrite (tget_telems _ _ _ _ (rep_trs _ _ _ _ _ R)).
      by rewrite (slot_panic _ _ E).
  Qed.

  Lemma get_train_rep i :
    refines (get_train n i m) (sget (v_slots v) i)
      (fun s t m' => m' = m /\ t = mkTrain c (s_delta s) (s_act s) (s_active s)).
  Proof.
    unfold get_train. eapply refines_skip; [apply load_Ok, R|]. cbn [n_train].
    destruct (sget (v_slots v) i) as [s|p] eqn:E; cbn [refines].
    - destruct (slot_of _ _ E) as (l & Hl & Et). eexists _, m. split; [|done].
      erewrite bindM_Ok. 2:{ rewrite (tget_telems _ _ _ _ (rep_trs _ _ _ _ _ R)). by rewrite Hl. }
      apply load_Ok, Et.
    - erewrite bindM_Panic; [done|]. rewrite (tget_telems _ _ _ _ (rep_trs _ _ _ _ _ R)).
      by rewrite (slot_panic _ _ E).
  Qed.

  Context (OK : ly_ok ly).

  Lemma train_modify_rep i l s f s' :
    sget (v_slots v) i = Ok s -> sget (ly_trs ly) i = Ok l ->
    f (mkTrain c (s_delta s) (s_act s) (s_active s)) = mkTrain c (s_delta s') (s_act s') (s_active s') ->
    exists m', train_modify l f m = Ok (tt, m') /\ rep m' c n ly (v_set_slot v i s') /\ touched (ly_trs ly) [] [] m m'.
  Proof.
    intros Hs Hl Hf. destruct (slot_of _ _ Hs) as (l' & Hl' & Et).
    rewrite Hl in Hl'. injection Hl' as <-.
    destruct (store_tr_touched m l _ (f (mkTrain c (s_delta s) (s_act s) (s_active s))) Et) as (m' & Hm' & Htr & Hb & Hff & Ht).
    exists m'. split.
    { unfold train_modify. erewrite bindM_Ok by (apply load_Ok, Et). done. }
    apply sget_Ok in Hl as [Hi Hl]. apply sget_Ok in Hs as [_ Hs].
    split.
    - destruct R as [Rn Rb Rt Rs Rw Rm Rv Rtt]. constructor.
      + by rewrite (tc_node _ _ _ _ _ Ht).
      + rewrite Hb. done.
      + by rewrite (telems_touched _ _ _ _ _ _ Ht).
      + cbn [v_set_slot v_slots]. apply Forall2_same_length_lookup_2.
        { rewrite insert_length. apply slots_length. }
        intros k x y Hx Hy. rewrite Htr.
        destruct (decide (k = Z.to_nat i)) as [->|Hne].
        * rewrite Hl in Hx. injection Hx as <-. rewrite list_lookup_insert in Hy by (eapply lookup_lt_Some, Hs).
          injection Hy as <-. rewrite list_lookup_insert by (eapply lookup_lt_Some, Et). by rewrite Hf.
        * rewrite list_lookup_insert_ne in Hy by done. rewrite list_lookup_insert_ne.
          -- eapply (Forall2_lookup_lr _ _ _ _ _ _ Rs); done.
          -- intros ->. apply Hne. eapply NoDup_lookup; [apply OK|done|done].
      + cbn. by rewrite (felems_same_f m).
      + cbn. by rewrite (felems_same_f m).
      + cbn. by rewrite (felems_same_f m).
      + cbn. by rewrite (felems_same_f m).
    - eapply touched_weaken; [| | |exact Ht]; [|set_solver..].
      intros x Hx. apply elem_of_list_singleton in Hx as ->. by eapply elem_of_list_lookup_2.
  Qed.

  Lemma base_modify_rep f b tb mb vb rb :
    f (mkBase c (v_type v) (v_batch v) (v_id v) (ly_w ly) (ly_w ly) (ly_mom ly) (ly_vel ly) (ly_t ly)
        (v_bias v) (v_tBias v) (v_momBias v) (v_velBias v) (v_mirrorBias v)) =
      mkBase c (v_type v) (v_batch v) (v_id v) (ly_w ly) (ly_w ly) (ly_mom ly) (ly_vel ly) (ly_t ly) b tb mb vb rb ->
    exists m', base_modify (ly_base ly) f m = Ok (tt, m') /\ rep m' c n ly (v_set_biases v b tb mb vb rb) /\
      touched [] [ly_base ly] [] m m'.
  Proof.
    intros Hf.
    destruct (store_base_touched m (ly_base ly) _ (mkBase c (v_type v) (v_batch v) (v_id v) (ly_w ly) (ly_w ly) (ly_mom ly) (ly_vel ly) (ly_t ly) b tb mb vb rb) (rep_base _ _ _ _ _ R)) as (m' & Hm' & Hb & Htr & Hff & Ht).
    exists m'. split.
    { unfold base_modify. erewrite bindM_Ok by apply load_base_rep. by rewrite Hf. }
    split; [|done]. destruct R as [Rn Rb Rt Rs Rw Rm Rv Rtt]. constructor.
    + by rewrite (tc_node _ _ _ _ _ Ht).
    + rewrite Hb. rewrite list_lookup_insert by (eapply lookup_lt_Some, Rb). done.
    + by rewrite (telems_touched _ _ _ _ _ _ Ht).
    + rewrite Htr. exact Rs.
    + cbn. by rewrite (felems_same_f m).
    + cbn. by rewrite (felems_same_f m).
    + cbn. by rewrite (felems_same_f m).
    + cbn. by rewrite (felems_same_f m).
  Qed.

  (** Replacing the content of one slice. *)
  Lemma rep_set_slice m' (s : fslice) : s ∈ ly_slices ly -> touched [] [] [s] m m' ->
    (forall xs, s = ly_w ly -> felems m' s = Some xs -> rep m' c n ly (v_set_w v xs)) /\
    (forall xs, s = ly_mom ly -> felems m' s = Some xs -> rep m' c n ly (v_set_mom v xs)) /\
    (forall xs, s = ly_vel ly -> felems m' s = Some xs -> rep m' c n ly (v_set_vel v xs)) /\
    (forall xs, s = ly_t ly -> felems m' s = Some xs -> rep m' c n ly (v_set_t v xs)).
  Proof.
    intros Hs Ht. destruct OK as (_ & D1 & D2 & D3 & D4 & D5 & D6).
    destruct R as [Rn Rb Rt Rs Rw Rm Rv Rtt]. pose proof Ht as [].
    assert (Hslots : Forall2 (fun l s => m_tr m' !! l = Some (mkTrain c (s_delta s) (s_act s) (s_active s))) (ly_trs ly) (v_slots v)).
    { eapply Forall2_impl_l; [exact Rs|]. cbn. intros x y _ E. rewrite tc_tr by set_solver. done. }
    assert (Hf : forall s', sdisj s' s -> felems m' s' = felems m s').
    { intros s' Hd. apply tc_f. intros s'' Hin. apply elem_of_list_singleton in Hin as ->. done. }
    repeat split; cbn; intros; subst s;
      try (by rewrite tc_node); try (rewrite tc_base by set_solver; done);
      try (by rewrite (telems_touched _ _ _ _ _ _ Ht)); try done;
      rewrite Hf by (done || by apply sdisj_sym); done.
  Qed.
End Owned.

(** Only parts of the node changed. *)
Definition tnode (ly : Lay) : mem -> mem -> Prop := touched (ly_trs ly) [ly_base ly] (ly_slices ly).

Lemma tnode_trs ly m m' : touched (ly_trs ly) [] [] m m' -> tnode ly m m'.
Proof. apply touched_weaken; set_solver. Qed.
Lemma tnode_base ly m m' : touched [] [ly_base ly] [] m m' -> tnode ly m m'.
Proof. apply touched_weaken; set_solver. Qed.
Lemma tnode_slice ly s m m' : s ∈ ly_slices ly -> touched [] [] [s] m m' -> tnode ly m m'.
Proof. intros. eapply touched_weaken; [| | |done]; set_solver. Qed.
Lemma tnode_trans ly m1 m2 m3 : tnode ly m1 m2 -> tnode ly m2 m3 -> tnode ly m1 m3.
Proof. apply touched_trans. Qed.
Lemma tnode_refl ly m : tnode ly m m.
Proof. apply touched_refl. Qed.

Lemma rep_tnode m m' c n ly v ly' : rep m c n ly v -> tnode ly' m m' -> apart ly ly' -> rep m' c n ly v.
Proof.
  intros R Ht (Hb & Htr & Hs). eapply rep_frame; [done|exact Ht|].
  split; [done|]. split; [set_solver|done].
Qed.

Lemma apart_sym a b : apart a b -> apart b a.
Proof.
  intros (Hb & Ht & Hs). split; [congruence|]. split; [intros l ? ?; by eapply Ht|].
  intros. apply sdisj_sym. auto.
Qed.

Lemma v_set_slot_2 v i s s' : v_set_slot (v_set_slot v i s) i s' = v_set_slot v i s'.
Proof. unfold v_set_slot. cbn. by rewrite list_insert_insert. Qed.

Lemma v_set_slot_get v i s s0 : sget (v_slots v) i = Ok s0 -> sget (v_slots (v_set_slot v i s)) i = Ok s.
Proof.
  rewrite !sget_Ok. intros [Hi Hs]. split; [done|]. cbn. rewrite list_lookup_insert; [done|].
  by eapply lookup_lt_Some.
Qed.

Lemma feqb_one x : feqb x fone = true -> x = fone.
Proof.
  assert (E1 : fone = S754_finite false 4503599627370496 (-52)) by reflexivity.
  rewrite E1. generalize 4503599627370496%positive as k. intros k.
  unfold feqb, SFeqb, SFcompare.
  destruct x as [s|s| |s mm e]; [by destruct s|by destruct s|done|].
  destruct s; [done|].
  destruct (Z.compare_spec e (-52)) as [->| |]; [|done..].
  pose proof (Pos.compare_eq mm k) as HP. unfold Pos.compare in HP.
  destruct (Pos.compare_cont Eq mm k); [|done..].
  intros _. by rewrite HP.
Qed.

Lemma elem_of_list_In_existsb (l : list Z) x : x ∈ l <-> existsb (fun y => y =? x) l.
Proof.
  rewrite elem_of_list_In. split.
  - intros H. apply Is_true_eq_left, existsb_exists. exists x. split; [done|]. apply Z.eqb_refl.
  - intros H%Is_true_eq_true. apply existsb_exists in H as (y & Hy & E). by apply Z.eqb_eq in E as ->.
Qed.

Section Ops.
  Context (m : mem) (c : Z) (n : nat) (ly : Lay) (v : NodeView) (R : rep m c n ly v) (OK : ly_ok ly).

  Lemma SetT_rep i x : refines (node_SetT c n i x m) (sset (v_t v) i x)
    (fun t n' m' => n' = n /\ rep m' c n ly (v_set_t v t) /\ tnode ly m m').
  Proof.
    unfold node_SetT, set_slot.
    eapply refines_skip; [by eapply clone_id|]. eapply refines_skip; [by eapply own_base_id|].
    eapply refines_skip; [by eapply load_base_rep|]. cbn [b_t].
    pose proof (fset_felems _ _ _ i x (rep_t _ _ _ _ _ R)) as H.
    destruct (sset (v_t v) i x); cbn [refines].
    - destruct H as (m' & H & He & Ht). exists n, m'. erewrite bindM_Ok by exact H.
      split; [done|]. split; [done|]. split; [|eapply tnode_slice; [|exact Ht]; set_solver].
      eapply (rep_set_slice _ _ _ _ _ R OK m' (ly_t ly)); [set_solver|done|done|done].
    - by erewrite bindM_Panic by exact H.
  Qed.

  Lemma SetAdamAvgMom_rep i x : refines (node_SetAdamAvgMom c n i x m) (sset (v_mom v) i x)
    (fun t n' m' => n' = n /\ rep m' c n ly (v_set_mom v t) /\ tnode ly m m').
  Proof.
    unfold node_SetAdamAvgMom, set_slot.
    eapply refines_skip; [by eapply clone_id|]. eapply refines_skip; [by eapply own_base_id|].
    eapply refines_skip; [by eapply load_base_rep|]. cbn [b_mom].
    pose proof (fset_felems _ _ _ i x (rep_mom _ _ _ _ _ R)) as H.
    destruct (sset (v_mom v) i x); cbn [refines].
    - destruct H as (m' & H & He & Ht). exists n, m'. erewrite bindM_Ok by exact H.
      split; [done|]. split; [done|]. split; [|eapply tnode_slice; [|exact Ht]; set_solver].
      eapply (rep_set_slice _ _ _ _ _ R OK m' (ly_mom ly)); [set_solver|done|done|done].
    - by erewrite bindM_Panic by exact H.
  Qed.

  Lemma SetAdamAvgVel_rep i x : refines (node_SetAdamAvgVel c n i x m) (sset (v_vel v) i x)
    (fun t n' m' => n' = n /\ rep m' c n ly (v_set_vel v t) /\ tnode ly m m').
  Proof.
    unfold node_SetAdamAvgVel, set_slot.
    eapply refines_skip; [by eapply clone_id|]. eapply refines_skip; [by eapply own_base_id|].
    eapply refines_skip; [by eapply load_base_rep|]. cbn [b_vel].
    pose proof (fset_felems _ _ _ i x (rep_vel _ _ _ _ _ R)) as H.
    destruct (sset (v_vel v) i x); cbn [refines].
    - destruct H as (m' & H & He & Ht). exists n, m'. erewrite bindM_Ok by exact H.
      split; [done|]. split; [done|]. split; [|eapply tnode_slice; [|exact Ht]; set_solver].
      eapply (rep_set_slice _ _ _ _ _ R OK m' (ly_vel ly)); [set_solver|done|done|done].
    - by erewrite bindM_Panic by exact H.
  Qed.

  Lemma set_scalar_rep f x b tb mb vb rb :
    f x (mkBase c (v_type v) (v_batch v) (v_id v) (ly_w ly) (ly_w ly) (ly_mom ly) (ly_vel ly) (ly_t ly)
        (v_bias v) (v_tBias v) (v_momBias v) (v_velBias v) (v_mirrorBias v)) =
      mkBase c (v_type v) (v_batch v) (v_id v) (ly_w ly) (ly_w ly) (ly_mom ly) (ly_vel ly) (ly_t ly) b tb mb vb rb ->
    exists m', set_scalar f c n x m = Ok (n, m') /\ rep m' c n ly (v_set_biases v b tb mb vb rb) /\ tnode ly m m'.
  Proof.
    intros Hf. destruct (base_modify_rep _ _ _ _ _ R (f x) _ _ _ _ _ Hf) as (m' & Hm & R' & Ht).
    exists m'. unfold set_scalar.
    erewrite bindM_Ok by (by eapply clone_id). erewrite bindM_Ok by (by eapply own_base_id).
    erewrite bindM_Ok by exact Hm. split; [done|]. split; [done|]. by apply tnode_base.
  Qed.

  Lemma CopyMirror_rep : exists m', node_CopyWeightsAndBiasFromMirror c n m = Ok (n, m') /\
    rep m' c n ly (v_set_biases v (v_mirrorBias v) (v_tBias v) (v_momBias v) (v_velBias v) (v_mirrorBias v)) /\ tnode ly m m'.
  Proof.
    destruct (base_modify_rep _ _ _ _ _ R (fun b => b_set_bias (b_mirrorBias b) b) (v_mirrorBias v) (v_tBias v) (v_momBias v) (v_velBias v) (v_mirrorBias v) eq_refl)
      as (m' & Hm & R' & Ht).
    exists m'. unfold node_CopyWeightsAndBiasFromMirror.
    erewrite bindM_Ok by (by eapply clone_id). erewrite bindM_Ok by (by eapply own_base_id).
    erewrite bindM_Ok by (by eapply load_base_rep). cbn [b_weights b_mirror].
    destruct (fcopy_self _ _ _ (rep_w _ _ _ _ _ R)) as (m1 & Hc & ->).
    erewrite bindM_Ok by exact Hc. erewrite bindM_Ok by exact Hm. split; [done|]. split; [done|]. by apply tnode_base.
  Qed.

  Lemma GetLastActivation_rep i :
    refines (node_GetLastActivation n i m) (sget (v_slots v) i) (fun s a m' => m' = m /\ a = slot_act s).
  Proof.
    unfold node_GetLastActivation.
    eapply refines_bind_inv; [by eapply get_train_rep|]. cbn beta. intros s t m' [-> ->].
    apply refines_ret. split; [done|]. unfold slot_act, on, inactive; cbn. by destruct (feqb _ _).
  Qed.

  Lemma SetlastActivation_rep i x : refines (node_SetlastActivation c n i x m) (ref_set_act v i x)
    (fun v' n' m' => n' = n /\ rep m' c n ly v' /\ tnode ly m m').
  Proof.
    unfold node_SetlastActivation, ref_set_act.
    eapply refines_skip; [by eapply clone_id|].
    pose proof (own_train_rep _ _ _ _ _ R i) as Hr.
    destruct (sget (v_slots v) i) as [s|p] eqn:Hs; cbn [mbind res_bind refines] in *;
      [|by erewrite bindM_Panic by exact Hr].
    destruct Hr as (l & m1 & Hr & -> & Hl & Ht).
    destruct (train_modify_rep _ _ _ _ _ R OK i l s (tr_set_act x) (mkSlot (s_active s) x (s_delta s)) Hs Hl eq_refl) as (m' & Hm & R' & Htt).
    exists n, m'. erewrite bindM_Ok by exact Hr. erewrite bindM_Ok by exact Hm.
    split; [done|]. split; [done|]. split; [done|]. by apply tnode_trs.
  Qed.

  Lemma get_train_ok i s : sget (v_slots v) i = Ok s ->
    get_train n i m = Ok (mkTrain c (s_delta s) (s_act s) (s_active s), m).
  Proof.
    intros Hs. pose proof (get_train_rep _ _ _ _ _ R i) as H. rewrite Hs in H.
    destruct H as (t & m' & H & -> & ->). done.
  Qed.
  Lemma get_train_panic i p : sget (v_slots v) i = Panic p -> get_train n i m = Panic p.
  Proof. intros Hs. pose proof (get_train_rep _ _ _ _ _ R i) as H. by rewrite Hs in H. Qed.
  Lemma own_train_ok i s : sget (v_slots v) i = Ok s -> exists l, own_train c n i m = Ok (l, m) /\
    sget (ly_trs ly) i = Ok l /\ load_tr l m = Ok (mkTrain c (s_delta s) (s_act s) (s_active s), m).
  Proof.
    intros Hs. pose proof (own_train_rep _ _ _ _ _ R i) as H. rewrite Hs in H.
    destruct H as (t & m' & H & -> & ? & ?). exists t. split; [done|]. split; [done|]. by apply load_Ok.
  Qed.
  Lemma own_train_panic i p : sget (v_slots v) i = Panic p -> own_train c n i m = Panic p.
  Proof. intros Hs. pose proof (own_train_rep _ _ _ _ _ R i) as H. by rewrite Hs in H. Qed.

  Lemma IncrementDelta_rep i d : refines (node_IncrementDelta c n i d m) (ref_incr v i d)
    (fun v' n' m' => n' = n /\ rep m' c n ly v' /\ touched (ly_trs ly) [] [] m m').
  Proof.
    unfold node_IncrementDelta, ref_incr.
    destruct (sget (v_slots v) i) as [s|p] eqn:Hs; cbn [mbind res_bind refines];
      [|by erewrite bindM_Panic by (by apply get_train_panic)].
    eapply refines_skip; [by apply get_train_ok|].
    unfold inactive, on. cbn [tr_active tr_act].
    destruct (feqb (s_active s) fone) eqn:E1; cbn [negb]; [|done].
    destruct (fleb (s_act s) fzero) eqn:E2.
    { apply refines_ret. split; [done|]. split; [done|apply touched_refl]. }
    eapply refines_skip; [by eapply clone_id|].
    destruct (own_train_ok _ _ Hs) as (l & Ho & Hl & _).
    eapply refines_skip; [exact Ho|].
    destruct (train_modify_rep _ _ _ _ _ R OK i l s (fun t => tr_set_delta (fadd (tr_delta t) d) t)
       (mkSlot (s_active s) (s_act s) (fadd (s_delta s) d)) Hs Hl eq_refl) as (m' & Hm & R' & Htt).
    eapply refines_skip; [exact Hm|]. apply refines_ret. done.
  Qed.

  Lemma weighted_sum_rep data s0 :
    refines (mfold (fun s p => w ← fget (ly_w ly) (iv_index p); mret (fadd s (fmul w (iv_value p)))) s0 data m)
      (foldM (fun s p => x ← sget (v_w v) (iv_index p); Ok (fadd s (fmul x (iv_value p)))) s0 data)
      (fun a b m' => a = b /\ m' = m).
  Proof.
    apply (refines_fold _ _ (fun a b m' => a = b /\ m' = m)); [|done].
    intros b a m' p _ [-> ->]. rewrite (bindM_Ok_or _ _ m _ (fget_felems _ _ _ (iv_index p) (rep_w _ _ _ _ _ R))).
    destruct (sget (v_w v) (iv_index p)); cbn [mbind res_bind refines]; [|done]. eexists _, _; done.
  Qed.

  Lemma GetActivation_rep data i : refines (node_GetActivation c n data i m) (ref_activate v data i)
    (fun r a m' => a.1 = r.1 /\ a.2 = n /\ rep m' c n ly r.2 /\ touched (ly_trs ly) [] [] m m').
  Proof.
    unfold node_GetActivation, ref_activate.
    destruct (get_base_rep _ _ _ _ _ R) as (b & Hb & Eb).
    eapply refines_skip; [exact Hb|]. rewrite Eb. cbn [b_batch].
    destruct (v_batch v <? i); [done|].
    eapply refines_skip; [by eapply clone_id|].
    destruct (sget (v_slots v) i) as [s|p] eqn:Hs; cbn [mbind res_bind];
      [|cbn [refines]; by erewrite bindM_Panic by (by apply own_train_panic)].
    destruct (own_train_ok _ _ Hs) as (l & Ho & Hl & Hld).
    eapply refines_skip; [exact Ho|]. eapply refines_skip; [exact Hld|].
    set (v1 := v_set_slot v i (mkSlot fone (s_act s) (s_delta s))).
    assert (exists m1, (if inactive (mkTrain c (s_delta s) (s_act s) (s_active s))
              then _ ← train_modify l (tr_set_active fone); _ ← own_base c n; mret tt else mret tt) m = Ok (tt, m1) /\
              rep m1 c n ly v1 /\ touched (ly_trs ly) [] [] m m1) as (m1 & H1 & R1 & T1).
    { unfold inactive. cbn [tr_active]. destruct (feqb (s_active s) fone) eqn:E; cbn [negb].
      - exists m. split; [done|]. split; [|apply touched_refl].
        apply feqb_one in E. unfold v1. rewrite <- E. unfold v_set_slot.
        apply sget_Ok in Hs as [_ Hs]. destruct s; cbn in *. rewrite list_insert_id by done. by destruct v.
      - destruct (train_modify_rep _ _ _ _ _ R OK i l s (tr_set_active fone) (mkSlot fone (s_act s) (s_delta s)) Hs Hl eq_refl) as (m1 & Hm & R1 & T1).
        exists m1. erewrite bindM_Ok by exact Hm. erewrite bindM_Ok by (by eapply own_base_id). done. }
    eapply refines_skip; [exact H1|].
    destruct (get_base_rep _ _ _ _ _ R1) as (b1 & Hb1 & Eb1).
    eapply refines_skip; [exact Hb1|]. rewrite Eb1. cbn [b_weights b_bias b_type].
    assert (Hs1 : sget (v_slots v1) i = Ok (mkSlot fone (s_act s) (s_delta s))) by (by eapply v_set_slot_get).
    assert (Hsum : refines (mfold (fun s p => w ← fget (ly_w ly) (iv_index p); mret (fadd s (fmul w (iv_value p)))) fzero data m1)
      (weighted_sum (v_w v) data) (fun a b m' => a = b /\ m' = m1)).
    { apply (refines_fold _ _ (fun a b m' => a = b /\ m' = m1)); [|done].
      intros b' a m' q _ [-> ->].
      rewrite (bindM_Ok_or _ _ m1 _ (fget_felems _ _ _ (iv_index q) (rep_w _ _ _ _ _ R1))).
      cbn [v1 v_set_slot v_w].
      destruct (sget (v_w v) (iv_index q)); cbn [mbind res_bind refines]; [|done]. eexists _, _; done. }
    eapply refines_bind; [exact Hsum|]. cbn beta. intros sum sum' m' [<- ->].
    change (v_bias v1) with (v_bias v). change (v_type v1) with (v_type v). cbn zeta.
    set (a := fadd sum (v_bias v)).
    destruct (train_modify_rep _ _ _ _ _ R1 OK i l _ (tr_set_act a) (mkSlot fone a (s_delta s)) Hs1 Hl eq_refl) as (m2 & Hm2 & R2 & T2).
    eapply refines_skip; [exact Hm2|].
    assert (Hs2 : sget (v_slots (v_set_slot v1 i (mkSlot fone a (s_delta s)))) i = Ok (mkSlot fone a (s_delta s))) by (by eapply v_set_slot_get).
    unfold v1 in R2, Hs2. rewrite v_set_slot_2 in R2, Hs2.
    assert (T12 : touched (ly_trs ly) [] [] m m2) by (by eapply touched_trans).
    destruct (v_type v).
    - destruct (fltb a fzero).
      + destruct (train_modify_rep _ _ _ _ _ R2 OK i l _ (fun t => tr_set_delta fzero (tr_set_act fzero t)) (mkSlot fone fzero fzero) Hs2 Hl eq_refl) as (m3 & Hm3 & R3 & T3).
        rewrite v_set_slot_2 in R3.
        eapply refines_skip; [by erewrite bindM_Ok by exact Hm3|].
        apply refines_ret. cbn [fst snd]. do 2 (split; [done|]). split; [done|]. by eapply touched_trans.
      + eapply refines_skip; [done|]. apply refines_ret. done.
    - eapply refines_skip; [done|]. apply refines_ret. done.
    - cbn [refines]. by erewrite bindM_Panic.
  Qed.

  Lemma contains_decide labels x : intSliceContains labels x = bool_decide (x ∈ labels).
  Proof.
    unfold intSliceContains. apply eq_bool_prop_intro. rewrite bool_decide_spec.
    rewrite <- elem_of_list_In_existsb. done.
  Qed.

  Lemma Softmax_rep norm i labels : refines (node_ComputeExtaStatsForSoftMax c n norm i labels m) (ref_softmax v norm i labels)
    (fun v' n' m' => n' = n /\ rep m' c n ly v' /\ touched (ly_trs ly) [] [] m m').
  Proof.
    unfold node_ComputeExtaStatsForSoftMax, ref_softmax.
    destruct (sget (v_slots v) i) as [s|p] eqn:Hs; cbn [mbind res_bind];
      [|cbn [refines]; by erewrite bindM_Panic by (by apply get_train_panic)].
    eapply refines_skip; [by apply get_train_ok|].
    unfold inactive, on. cbn [tr_active].
    destruct (feqb (s_active s) fone) eqn:E1; cbn [negb]; [|done].
    eapply refines_skip; [by eapply clone_id|].
    destruct (own_train_ok _ _ Hs) as (l & Ho & Hl & Hld).
    eapply refines_skip; [exact Ho|]. eapply refines_skip; [exact Hld|].
    destruct (get_base_rep _ _ _ _ _ R) as (b & Hb & Eb).
    eapply refines_skip; [exact Hb|]. rewrite Eb. cbn [b_batch b_id tr_act]. cbn zeta.
    rewrite contains_decide.
    match goal with |- context [tr_set_delta ?d (tr_set_act ?a _)] =>
      destruct (train_modify_rep _ _ _ _ _ R OK i l s (fun t => tr_set_delta d (tr_set_act a t)) (mkSlot (s_active s) a d) Hs Hl eq_refl) as (m' & Hm & R' & Htt)
    end.
    eapply refines_skip; [exact Hm|]. apply refines_ret. done.
  Qed.

  (** x[j] += g on the accumulator (Adam) or on the weights *)
  Lemma grad_rep (adam : bool) lr j g :
    refines ((if adam then fadd_slot (ly_t ly) j g else fadd_slot (ly_w ly) j (fmul lr g)) m)
      (ref_grad adam lr v j g)
      (fun v' _ m' => rep m' c n ly v' /\ touched [] [] (ly_slices ly) m m' /\ v_slots v' = v_slots v).
  Proof.
    unfold ref_grad. destruct adam.
    - pose proof (fadd_slot_felems _ _ _ j g (rep_t _ _ _ _ _ R)) as H.
      destruct (add_at (v_t v) j g) as [xs|]; cbn [mbind res_bind refines]; [|done].
      destruct H as (m' & H & He & Ht). exists tt, m'. split; [done|].
      split; [|split; [|done]].
      + eapply (rep_set_slice _ _ _ _ _ R OK m' (ly_t ly)); [set_solver|done|done|done].
      + eapply touched_weaken; [| | |exact Ht]; set_solver.
    - pose proof (fadd_slot_felems _ _ _ j (fmul lr g) (rep_w _ _ _ _ _ R)) as H.
      destruct (add_at (v_w v) j (fmul lr g)) as [xs|]; cbn [mbind res_bind refines]; [|done].
      destruct H as (m' & H & He & Ht). exists tt, m'. split; [done|].
      split; [|split; [|done]].
      + eapply (rep_set_slice _ _ _ _ _ R OK m' (ly_w ly)); [set_solver|done|done|done].
      + eapply touched_weaken; [| | |exact Ht]; set_solver.
  Qed.

  (** The end of both back-propagation functions. *)
  Lemma finish_rep (adam : bool) step i l s :
    sget (v_slots v) i = Ok s -> sget (ly_trs ly) i = Ok l ->
    exists m', (_ ← base_modify (ly_base ly) (fun b =>
          if adam then b_set_tBias (fadd (b_tBias b) (s_delta s)) b
          else b_set_mirrorBias (fadd (b_mirrorBias b) step) b);
        _ ← train_modify l tr_reset; mret n) m = Ok (n, m') /\
      rep m' c n ly (ref_finish adam step v i (s_delta s)) /\ tnode ly m m'.
  Proof.
    intros Hs Hl.
    assert (exists m1 v1, base_modify (ly_base ly) (fun b =>
          if adam then b_set_tBias (fadd (b_tBias b) (s_delta s)) b
          else b_set_mirrorBias (fadd (b_mirrorBias b) step) b) m = Ok (tt, m1) /\
        v1 = (if adam then v_set_biases v (v_bias v) (fadd (v_tBias v) (s_delta s)) (v_momBias v) (v_velBias v) (v_mirrorBias v)
     else v_set_biases v (v_bias v) (v_tBias v) (v_momBias v) (v_velBias v) (fadd (v_mirrorBias v) step)) /\
        rep m1 c n ly v1 /\ touched [] [ly_base ly] [] m m1) as (m1 & v1 & H1 & Ev & R1 & T1).
    { destruct adam.
      - destruct (base_modify_rep _ _ _ _ _ R (fun b => b_set_tBias (fadd (b_tBias b) (s_delta s)) b) (v_bias v) (fadd (v_tBias v) (s_delta s)) (v_momBias v) (v_velBias v) (v_mirrorBias v) eq_refl) as (m1 & H1 & R1 & T1).
        eexists m1, _. done.
      - destruct (base_modify_rep _ _ _ _ _ R (fun b => b_set_mirrorBias (fadd (b_mirrorBias b) step) b) (v_bias v) (v_tBias v) (v_momBias v) (v_velBias v) (fadd (v_mirrorBias v) step) eq_refl) as (m1 & H1 & R1 & T1).
        eexists m1, _. done. }
    assert (Hs1 : sget (v_slots v1) i = Ok s) by (subst v1; by destruct adam).
    destruct (train_modify_rep _ _ _ _ _ R1 OK i l s tr_reset (mkSlot fzero fzero fzero) Hs1 Hl eq_refl) as (m2 & H2 & R2 & T2).
    exists m2. erewrite bindM_Ok by exact H1. erewrite bindM_Ok by exact H2. split; [done|].
    split.
    - unfold ref_finish. by rewrite <- Ev.
    - eapply tnode_trans; [by apply tnode_base|by apply tnode_trs].
  Qed.
End Ops.

Lemma BackPropagateFirstLayer_rep E m c n ly v pairs lr i : rep m c n ly v -> ly_ok ly ->
  refines (node_BackPropagateFirstLayer E c n pairs lr i m) (ref_backprop_first (e_UseAdam E) lr v pairs i)
    (fun v' n' m' => n' = n /\ rep m' c n ly v' /\ tnode ly m m').
Proof.
  intros R OK. unfold node_BackPropagateFirstLayer, ref_backprop_first.
  destruct (sget (v_slots v) i) as [s|p] eqn:Hs; cbn [mbind res_bind];
    [|cbn [refines]; by erewrite bindM_Panic by (by eapply get_train_panic)].
  eapply refines_skip; [by eapply get_train_ok|].
  unfold inactive, on. cbn [tr_active].
  destruct (feqb (s_active s) fone) eqn:E1; cbn [negb]; [|done].
  eapply refines_skip; [by eapply clone_id|].
  destruct (own_train_ok _ _ _ _ _ R _ _ Hs) as (l & Ho & Hl & Hld).
  eapply refines_skip; [exact Ho|]. eapply refines_skip; [by eapply own_base_id|].
  eapply refines_skip; [by eapply load_base_rep|]. cbn [b_t b_mirror].
  set (Q := fun v' (_ : unit) m' => rep m' c n ly v' /\ touched [] [] (ly_slices ly) m m' /\ v_slots v' = v_slots v).
  assert (HL : refines (miter (fun p => t ← load_tr l;
          let gradT := fmul (tr_delta t) (iv_value p) in
          if e_UseAdam E then fadd_slot (ly_t ly) (iv_index p) gradT
          else fadd_slot (ly_w ly) (iv_index p) (fmul lr gradT)) pairs m)
     (foldM (fun v p => ref_grad (e_UseAdam E) lr v (iv_index p) (fmul (s_delta s) (iv_value p))) v pairs) Q).
  { unfold miter. apply (refines_fold _ _ Q); [|split; [done|]; split; [apply touched_refl|done]].
    intros v' [] m' p _ (R' & T' & S').
    destruct (own_train_ok _ _ _ _ _ R' i s ltac:(by rewrite S')) as (l' & _ & Hl' & Hld').
    rewrite Hl in Hl'. injection Hl' as <-.
    eapply refines_skip; [exact Hld'|]. cbn [tr_delta]. cbn zeta.
    eapply refines_impl; [by eapply grad_rep|]. cbn beta. intros v2 [] m2 (R2 & T2 & S2).
    split; [done|]. split; [by eapply touched_trans|congruence]. }
  eapply refines_bind; [exact HL|]. intros v' [] m' (R' & T' & S').
  destruct (own_train_ok _ _ _ _ _ R' i s ltac:(by rewrite S')) as (l' & _ & Hl' & Hld').
  rewrite Hl in Hl'. injection Hl' as <-.
  eapply refines_skip; [exact Hld'|]. cbn [tr_delta].
  destruct (finish_rep _ _ _ _ _ R' OK (e_UseAdam E) (fadd lr (s_delta s)) i l s ltac:(by rewrite S') Hl) as (m2 & H2 & R2 & T2).
  eexists n, m2. split; [exact H2|]. split; [done|]. split; [done|].
  eapply tnode_trans; [|exact T2]. eapply touched_weaken; [| | |exact T']; set_solver.
Qed.

(** * Several nodes *)
Lemma reps_get m c ns lys vs j : reps m c ns lys vs ->
  match sget vs j with
  | Ok v => exists n ly, sget ns j = Ok n /\ lys !! Z.to_nat j = Some ly /\ ly ∈ lys /\ rep m c n ly v
  | Panic p => sget ns j = Panic p
  end.
Proof.
  intros [L1 L2 Ha]. destruct (sget vs j) as [v|p] eqn:E.
  - apply sget_Ok in E as [Hj E]. pose proof (lookup_lt_Some _ _ _ E) as Hlt.
    destruct (lookup_lt_is_Some_2 ns (Z.to_nat j)) as [n Hn]; [lia|].
    destruct (lookup_lt_is_Some_2 lys (Z.to_nat j)) as [ly Hly]; [lia|].
    exists n, ly. split; [by apply sget_Ok|]. split; [done|]. split; [by eapply elem_of_list_lookup_2|]. by eapply Ha.
  - unfold sget in *. destruct (j <? 0); [by injection E as <-|].
    destruct (vs !! Z.to_nat j) eqn:Ev; [done|]. apply lookup_ge_None in Ev.
    rewrite lookup_ge_None_2 by lia. by injection E as <-.
Qed.

Lemma reps_update m m' c ns lys vs j n ly v' :
  reps m c ns lys vs -> all_apart lys -> ns !! j = Some n -> lys !! j = Some ly ->
  rep m' c n ly v' -> tnode ly m m' -> reps m' c ns lys (<[j := v']> vs).
Proof.
  intros [L1 L2 Ha] Hap Hn Hly R T. constructor; [done|by rewrite insert_length|].
  intros k nk lk vk Hnk Hlk Hvk. destruct (decide (k = j)) as [->|Hne].
  - rewrite Hn in Hnk; rewrite Hly in Hlk. injection Hnk as <-; injection Hlk as <-.
    rewrite list_lookup_insert in Hvk; [by injection Hvk as <-|]. apply lookup_lt_Some in Hn. lia.
  - rewrite list_lookup_insert_ne in Hvk by done. eapply rep_tnode; [by eapply Ha|exact T|].
    by eapply Hap.
Qed.

Lemma reps_frame T B S m m' c ns lys vs :
  reps m c ns lys vs -> touched T B S m m' -> Forall (avoids T B S) lys -> reps m' c ns lys vs.
Proof.
  intros [L1 L2 Ha] Ht HF. constructor; [done..|]. intros j n ly v Hn Hly Hv.
  eapply rep_frame; [by eapply Ha|exact Ht|]. by eapply Forall_lookup_1.
Qed.

Lemma apart_avoids_node a b : apart a b -> avoids (ly_trs b) [ly_base b] (ly_slices b) a.
Proof. intros (? & ? & ?). split; [done|]. split; [set_solver|done]. Qed.

Lemma BackPropagate_rep E m c n ly v pa ns lys ps pairs lr i :
  rep m c n ly v -> ly_ok ly ->
  m_na m !! pa = Some ns -> reps m c ns lys ps -> all_apart lys -> Forall ly_ok lys -> Forall (apart ly) lys ->
  refines (node_BackPropagate E c n pa pairs lr i m) (ref_backprop (e_UseAdam E) lr v ps pairs i)
    (fun r n' m' => n' = n /\ rep m' c n ly r.1 /\ reps m' c ns lys r.2 /\
       touched (ly_trs ly ++ concat (map ly_trs lys)) [ly_base ly] (ly_slices ly) m m').
Proof.
  intros R OK Hpa RP Hap HOK Hsep. unfold node_BackPropagate, ref_backprop.
  destruct (sget (v_slots v) i) as [s|p] eqn:Hs; cbn [mbind res_bind];
    [|cbn [refines]; by erewrite bindM_Panic by (by eapply get_train_panic)].
  eapply refines_skip; [by eapply get_train_ok|].
  unfold inactive, on. cbn [tr_active].
  destruct (feqb (s_active s) fone) eqn:E1; cbn [negb]; [|done].
  eapply refines_skip; [by eapply clone_id|].
  destruct (own_train_ok _ _ _ _ _ R _ _ Hs) as (l & Ho & Hl & Hld).
  eapply refines_skip; [exact Ho|]. eapply refines_skip; [by eapply own_base_id|].
  set (TT := ly_trs ly ++ concat (map ly_trs lys)).
  set (Q := fun (r : NodeView * list NodeView) (_ : unit) m' => rep m' c n ly r.1 /\ reps m' c ns lys r.2 /\
     touched TT [] (ly_slices ly) m m' /\ v_slots r.1 = v_slots v).
  assert (HL : refines (miter (backprop_step E c n l (ly_base ly) pa lr i) pairs m)
     (foldM (ref_backprop_step (e_UseAdam E) lr i) (v, ps) pairs) Q).
  { unfold miter. apply (refines_fold _ _ Q).
    2:{ split; [done|]. split; [done|]. split; [apply touched_refl|done]. }
    intros [v' ps'] [] m' p _ (R' & RP' & T' & S'). cbn [fst snd] in *.
    unfold backprop_step, ref_backprop_step.
    assert (Hpa' : m_na m' !! pa = Some ns) by (by rewrite (tc_na _ _ _ _ _ T')).
    eapply refines_skip; [apply load_Ok, Hpa'|]. rewrite (bindM_lift).
    pose proof (reps_get _ _ _ _ _ (iv_index p) RP') as Hg.
    destruct (sget ps' (iv_index p)) as [pv|q] eqn:Epv; cbn [mbind res_bind refines]; [|by rewrite Hg].
    destruct Hg as (pn & ply & Hpn & Hply & Hin & Rp). rewrite Hpn.
    rewrite S', Hs. cbn [mbind res_bind].
    destruct (own_train_ok _ _ _ _ _ R' i s ltac:(by rewrite S')) as (l' & _ & Hl' & Hld').
    rewrite Hl in Hl'. injection Hl' as <-.
    eapply refines_skip; [exact Hld'|]. eapply refines_skip; [by eapply load_base_rep|].
    cbn [b_weights b_t b_mirror tr_delta].
    rewrite (bindM_Ok_or _ _ m' _ (fget_felems _ _ _ (iv_index p) (rep_w _ _ _ _ _ R'))).
    destruct (sget (v_w v') (iv_index p)) as [x|q]; cbn [mbind res_bind refines]; [|done].
    assert (OKp : ly_ok ply) by (eapply Forall_forall; done).
    assert (Hsp : apart ly ply) by (eapply (proj1 (Forall_forall _ _)); done).
    pose proof (IncrementDelta_rep _ _ _ _ _ Rp OKp i (fmul (s_delta s) x)) as HI.
    destruct (ref_incr pv i (fmul (s_delta s) x)) as [pv'|q] eqn:Ei; cbn [mbind res_bind refines] in HI |- *;
      [|by erewrite bindM_Panic by exact HI].
    destruct HI as (pn' & m2 & HI & -> & Rp2 & T2).
    eapply refines_skip; [exact HI|].
    assert (Hpa2 : m_na m2 !! pa = Some ns) by (by rewrite (tc_na _ _ _ _ _ T2)).
    eapply refines_skip; [apply load_Ok, Hpa2|]. rewrite bindM_lift.
    apply sget_Ok in Hpn as [Hj Hpn]. pose proof (lookup_lt_Some _ _ _ Hpn) as Hlt.
    rewrite sset_total by lia. rewrite (list_insert_id ns) by done.
    eapply refines_skip.
    { rewrite (store_Ok m_na upd_na _ _ _ _ Hpa2). unfold upd_na. rewrite list_insert_id by done.
      instantiate (1 := m2). by destruct m2. }
    assert (R2 : rep m2 c n ly v').
    { eapply rep_tnode; [exact R'|apply tnode_trs, T2|done]. }
    assert (RP2 : reps m2 c ns lys (<[Z.to_nat (iv_index p) := pv']> ps')).
    { eapply reps_update; [exact RP'|done|done|done|done|]. by apply tnode_trs. }
    destruct (own_train_ok _ _ _ _ _ R2 i s ltac:(by rewrite S')) as (l' & _ & Hl' & Hld2).
    rewrite Hl in Hl'. injection Hl' as <-.
    eapply refines_skip; [exact Hld2|].
    eapply refines_bind; [by eapply GetLastActivation_rep|]. cbn beta. intros s' a m3 [-> ->].
    cbn [tr_delta]. cbn zeta.
    eapply refines_bind_ret; [by eapply grad_rep|]. cbn beta. intros v3 [] m3 (R3 & T3 & S3).
    split; [done|]. cbn [fst snd]. split.
    { eapply reps_frame; [exact RP2|exact T3|]. apply Forall_forall. intros ly' Hly'.
      split; [set_solver|]. split; [set_solver|]. intros. apply sdisj_sym.
      eapply (proj1 (Forall_forall _ _) Hsep ly' Hly'); done. }
    split; [|congruence]. eapply touched_trans; [exact T'|]. eapply touched_trans.
    - eapply touched_weaken; [| | |exact T2]; [|set_solver..]. unfold TT. intros k Hk. apply elem_of_app. right.
      apply elem_of_list_In, in_concat. exists (ly_trs ply). split; [|by apply elem_of_list_In].
      apply in_map. by apply elem_of_list_In.
    - eapply touched_weaken; [| | |exact T3]; set_solver. }
  eapply refines_bind; [exact HL|]. intros [v' ps'] [] m' (R' & RP' & T' & S'). cbn [fst snd] in *.
  destruct (own_train_ok _ _ _ _ _ R' i s ltac:(by rewrite S')) as (l' & _ & Hl' & Hld').
  rewrite Hl in Hl'. injection Hl' as <-.
  eapply refines_skip; [exact Hld'|]. cbn [tr_delta].
  destruct (finish_rep _ _ _ _ _ R' OK (e_UseAdam E) (fmul lr (s_delta s)) i l s ltac:(by rewrite S') Hl) as (m2 & H2 & R2 & T2).
  eexists n, m2. split; [exact H2|]. split; [done|]. cbn [fst snd]. split; [done|]. split.
  - eapply reps_frame; [exact RP'|exact T2|]. apply Forall_forall. intros ly' Hly'. apply apart_avoids_node, apart_sym.
    eapply (proj1 (Forall_forall _ _) Hsep ly' Hly').
  - eapply touched_trans; [eapply touched_weaken; [| | |exact T']; set_solver|].
    eapply touched_weaken; [| | |exact T2]; set_solver.
Qed.
