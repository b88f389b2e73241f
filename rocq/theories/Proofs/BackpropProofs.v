(** The loop of back-propagation in closed form, and when it panics. *)
From Verif.Spec Require Export BackpropSpec.
From Verif.Proofs Require Export NodeOps.
From Coq Require Import Lia ZifyBool ZifyNat.

Lemma upd_set_lookup {A} js g (xs : list A) k :
  upd_set js g xs !! k = (fun x => if bool_decide (Z.of_nat k ∈ js) then g (Z.of_nat k) x else x) <$> xs !! k.
Proof. unfold upd_set. by rewrite list_lookup_imap. Qed.
Lemma upd_set_length {A} js g (xs : list A) : length (upd_set js g xs) = length xs.
Proof. unfold upd_set. by rewrite imap_length. Qed.
Lemma upd_set_nil {A} g (xs : list A) : upd_set [] g xs = xs.
Proof. apply list_eq. intros k. rewrite upd_set_lookup. destruct (xs !! k); cbn; [|done]. by rewrite bool_decide_false by set_solver. Qed.
Lemma upd_set_cons {A} j js g (xs : list A) x : 0 <= j -> j ∉ js -> xs !! Z.to_nat j = Some x ->
  upd_set (j :: js) g xs = upd_set js g (<[Z.to_nat j := g j x]> xs).
Proof.
  intros Hj Hn Hx. apply list_eq. intros k. rewrite !upd_set_lookup.
  destruct (decide (k = Z.to_nat j)) as [->|Hne].
  - rewrite list_lookup_insert by (by eapply lookup_lt_Some). rewrite Hx. cbn. rewrite Z2Nat.id by done.
    rewrite bool_decide_true by set_solver. by rewrite bool_decide_false by done.
  - rewrite list_lookup_insert_ne by done. destruct (xs !! k); cbn; [|done]. f_equal.
    destruct (decide (Z.of_nat k ∈ js)).
    + by rewrite !bool_decide_true by set_solver.
    + rewrite !bool_decide_false; [done|done|]. rewrite elem_of_cons. intros [?|?]; [lia|done].
Qed.
Lemma upd_set_ext {A} js (g g' : Z -> A -> A) (xs : list A) :
  (forall j x, j ∈ js -> 0 <= j -> xs !! Z.to_nat j = Some x -> g j x = g' j x) -> upd_set js g xs = upd_set js g' xs.
Proof.
  intros H. apply list_eq. intros k. rewrite !upd_set_lookup. destruct (xs !! k) eqn:E; cbn; [|done]. f_equal.
  case_bool_decide; [|done]. apply H; [done|lia|]. by rewrite Nat2Z.id.
Qed.

Global Arguments upd_set : simpl never.

Definition loop_after (adam : bool) (lr : float64) (v : NodeView) (ps : list NodeView) (js : list Z) (i : Z) (d : float64)
    : NodeView * list NodeView :=
  (if adam then v_set_t v (upd_set js (fun j t => fadd t (fmul d (act_at ps i j))) (v_t v))
   else v_set_w v (upd_set js (fun j w => fadd w (fmul lr (fmul d (act_at ps i j)))) (v_w v)),
   prev_after v ps js i d).

Lemma sget_lookup {A} (xs : list A) j x : 0 <= j -> xs !! Z.to_nat j = Some x -> sget xs j = Ok x.
Proof. intros. by apply sget_Ok. Qed.

Lemma add_at_in xs j d x : 0 <= j -> xs !! Z.to_nat j = Some x -> add_at xs j d = Ok (<[Z.to_nat j := fadd x d]> xs).
Proof.
  intros Hj Hx. unfold add_at. rewrite (sget_lookup _ _ _ Hj Hx). cbn [mbind res_bind]. apply sset_Ok.
  apply lookup_lt_Some in Hx. split; [lia|done].
Qed.

(** One iteration. *)
Lemma step_ok adam lr v ps i p s pv s1 :
  let j := iv_index p in
  sget (v_slots v) i = Ok s -> 0 <= j -> ps !! Z.to_nat j = Some pv -> sget (v_slots pv) i = Ok s1 -> on s1 = true ->
  j < Z.of_nat (length (v_w v)) -> (adam = true -> j < Z.of_nat (length (v_t v))) ->
  ref_backprop_step adam lr i (v, ps) p =
    Ok (if adam then v_set_t v (<[Z.to_nat j := fadd (default fzero (v_t v !! Z.to_nat j)) (fmul (s_delta s) (slot_act s1))]> (v_t v))
        else v_set_w v (<[Z.to_nat j := fadd (default fzero (v_w v !! Z.to_nat j)) (fmul lr (fmul (s_delta s) (slot_act s1)))]> (v_w v)),
        <[Z.to_nat j := add_delta i (fmul (s_delta s) (weight_at v j)) pv]> ps).
Proof.
  intros j Hs Hj Hpv Hs1 Hon Hw Ht. unfold ref_backprop_step. fold j.
  rewrite (sget_lookup _ _ _ Hj Hpv). cbn [mbind res_bind]. rewrite Hs. cbn [mbind res_bind].
  destruct (lookup_lt_is_Some_2 (v_w v) (Z.to_nat j)) as [w Ew]; [lia|].
  rewrite (sget_lookup _ _ _ Hj Ew). cbn [mbind res_bind].
  pose proof (proj1 (sget_Ok _ _ _) Hs1) as [Hi Hl].
  assert (EI : ref_incr pv i (fmul (s_delta s) w) = Ok (add_delta i (fmul (s_delta s) (weight_at v j)) pv)).
  { unfold ref_incr, add_delta, weight_at. rewrite Hs1, Hl, Ew. cbn [mbind res_bind]. rewrite Hon. cbn [negb from_option].
    by destruct (fleb _ _). }
  rewrite EI. cbn [mbind res_bind].
  assert (ES : exists s2, sget (v_slots (add_delta i (fmul (s_delta s) (weight_at v j)) pv)) i = Ok s2 /\ slot_act s2 = slot_act s1).
  { unfold add_delta. rewrite Hl. destruct (fleb _ _); [eauto|]. eexists. split; [by erewrite v_set_slot_get by exact Hs1|].
    unfold slot_act, on. done. }
  destruct ES as (s2 & -> & E2). cbn [mbind res_bind]. rewrite E2. unfold ref_grad. destruct adam.
  - destruct (lookup_lt_is_Some_2 (v_t v) (Z.to_nat j)) as [t Et]; [lia|].
    rewrite (add_at_in _ _ _ _ Hj Et), Et. done.
  - rewrite (add_at_in _ _ _ _ Hj Ew), Ew. done.
Qed.

Lemma loop_ok adam lr i pairs : forall v ps s,
  sget (v_slots v) i = Ok s -> NoDup (map iv_index pairs) ->
  (forall j, j ∈ map iv_index pairs ->
    0 <= j /\ (exists pv, ps !! Z.to_nat j = Some pv /\ active_at pv i) /\
    j < Z.of_nat (length (v_w v)) /\ (adam = true -> j < Z.of_nat (length (v_t v)))) ->
  foldM (ref_backprop_step adam lr i) (v, ps) pairs = Ok (loop_after adam lr v ps (map iv_index pairs) i (s_delta s)).
Proof.
  induction pairs as [|p pairs IH]; intros v ps s Hs Hnd Hok; cbn [map foldM] in *.
  - unfold loop_after, prev_after. rewrite !upd_set_nil. destruct adam; by destruct v.
  - apply NoDup_cons in Hnd as [Hnin Hnd]. set (j := iv_index p) in *.
    destruct (Hok j) as (Hj & (pv & Hpv & s1 & Hs1 & Hon) & Hw & Ht); [set_solver|].
    rewrite (step_ok adam lr v ps i p s pv s1 Hs Hj Hpv Hs1 Hon Hw Ht). cbn [mbind res_bind]. fold j.
    assert (Hne : forall k, k ∈ map iv_index pairs -> k <> j) by (intros k Hk ->; done).
    assert (Hact : act_at ps i j = slot_act s1).
    { unfold act_at. rewrite Hpv. apply sget_Ok in Hs1 as [_ ->]. done. }
    erewrite IH; [| |done|].
    + f_equal. unfold loop_after, prev_after. 
      rewrite (upd_set_cons j _ _ ps pv Hj Hnin Hpv).
      assert (HA : forall k, k ∈ map iv_index pairs -> 0 <= k ->
        act_at (<[Z.to_nat j := add_delta i (fmul (s_delta s) (weight_at v j)) pv]> ps) i k = act_at ps i k).
      { intros k Hk H0. unfold act_at. rewrite list_lookup_insert_ne; [done|]. specialize (Hne k Hk). lia. }
      destruct adam.
      * destruct (lookup_lt_is_Some_2 (v_t v) (Z.to_nat j)) as [t Et]; [lia|].
        rewrite (upd_set_cons j _ _ (v_t v) t Hj Hnin Et), Et, Hact. cbn. unfold v_set_t. cbn. f_equal. f_equal.
        apply upd_set_ext. intros k x Hk H0 _. by rewrite HA.
      * destruct (lookup_lt_is_Some_2 (v_w v) (Z.to_nat j)) as [w Ew]; [lia|].
        rewrite (upd_set_cons j _ _ (v_w v) w Hj Hnin Ew), Ew, Hact. cbn. unfold v_set_w. cbn. f_equal.
        -- f_equal. apply upd_set_ext. intros k x Hk H0 _. by rewrite HA.
        -- apply upd_set_ext. intros k x Hk H0 _. f_equal. f_equal. unfold weight_at. cbn.
           rewrite list_lookup_insert_ne; [done|]. specialize (Hne k Hk). lia.
    + destruct adam; done.
    + intros k Hk. destruct (Hok k) as (Hk0 & (pk & Hpk & Hak) & Hkw & Hkt); [set_solver|].
      split; [done|]. split.
      * exists pk. split; [|done]. rewrite list_lookup_insert_ne; [done|]. specialize (Hne k Hk). lia.
      * destruct adam; cbn; rewrite ?insert_length; split; done.
Qed.

Lemma ref_backprop_closed adam lr v ps pairs i s :
  sget (v_slots v) i = Ok s -> NoDup (map iv_index pairs) -> backprop_ok adam v ps (map iv_index pairs) i ->
  ref_backprop adam lr v ps pairs i =
    Ok (if adam then node_after_adam v ps (map iv_index pairs) i (s_delta s)
        else node_after_plain lr v ps (map iv_index pairs) i (s_delta s),
        prev_after v ps (map iv_index pairs) i (s_delta s)).
Proof.
  intros Hs Hnd [[s' [Hs' Hon]] Hok]. unfold ref_backprop. rewrite Hs. cbn [mbind res_bind].
  assert (s' = s) as -> by congruence. rewrite Hon. cbn [negb].
  rewrite (loop_ok adam lr i pairs v ps s Hs Hnd Hok). cbn [mbind res_bind loop_after].
  destruct adam; done.
Qed.

(** * When back-propagation returns *)
Lemma ref_grad_lengths adam lr v j g v' : ref_grad adam lr v j g = Ok v' ->
  length (v_w v') = length (v_w v) /\ length (v_t v') = length (v_t v) /\
  (if adam then 0 <= j < Z.of_nat (length (v_t v)) else 0 <= j < Z.of_nat (length (v_w v))).
Proof.
  unfold ref_grad, add_at. destruct adam; intros H.
  - destruct (sget (v_t v) j) as [x|] eqn:E; cbn [mbind res_bind] in H; [|done].
    destruct (sset (v_t v) j _) as [x'|] eqn:E2; cbn [mbind res_bind] in H; [|done]. injection H as <-. cbn.
    apply sset_Ok in E2 as [? ->]. by rewrite insert_length.
  - destruct (sget (v_w v) j) as [x|] eqn:E; cbn [mbind res_bind] in H; [|done].
    destruct (sset (v_w v) j _) as [x'|] eqn:E2; cbn [mbind res_bind] in H; [|done]. injection H as <-. cbn.
    apply sset_Ok in E2 as [? ->]. by rewrite insert_length.
Qed.

Lemma ref_incr_inv v i d v' : ref_incr v i d = Ok v' -> active_at v i /\ v' = add_delta i d v.
Proof.
  unfold ref_incr, active_at, add_delta. destruct (sget (v_slots v) i) as [s|] eqn:E; cbn [mbind res_bind]; [|done].
  destruct (on s) eqn:Eo; cbn [negb]; [|done]. pose proof (proj1 (sget_Ok _ _ _) E) as [_ ->].
  destruct (fleb _ _); intros [= <-]; eauto.
Qed.

Lemma active_add_delta v i d : active_at v i -> active_at (add_delta i d v) i.
Proof.
  intros (s & Hs & Ho). unfold add_delta. pose proof (proj1 (sget_Ok _ _ _) Hs) as [_ ->]. destruct (fleb _ _); [by exists s|].
  eexists. split; [by eapply v_set_slot_get|]. done.
Qed.

Lemma step_inv adam lr i v ps p v' ps' : ref_backprop_step adam lr i (v, ps) p = Ok (v', ps') ->
  let j := iv_index p in
  0 <= j /\ (exists pv d, ps !! Z.to_nat j = Some pv /\ active_at pv i /\ ps' = <[Z.to_nat j := add_delta i d pv]> ps) /\
  j < Z.of_nat (length (v_w v)) /\ (adam = true -> j < Z.of_nat (length (v_t v))) /\
  v_slots v' = v_slots v /\ length (v_w v') = length (v_w v) /\ length (v_t v') = length (v_t v).
Proof.
  unfold ref_backprop_step. intros H. cbn zeta. bind_inv H. injection H as <- <-.
  apply ref_incr_inv in E2 as [Ha ->]. apply sget_Ok in E as [Hj Hp]. apply sget_Ok in E1 as [_ Hw].
  pose proof (ref_grad_slots _ _ _ _ _ _ E4). apply ref_grad_lengths in E4 as (? & ? & Hr).
  apply lookup_lt_Some in Hw. split; [done|]. split; [eauto|]. split; [lia|]. split; [|done].
  intros ->. lia.
Qed.

Lemma active_loop adam lr i pairs : forall v ps r, foldM (ref_backprop_step adam lr i) (v, ps) pairs = Ok r ->
  forall j, j ∈ map iv_index pairs ->
    0 <= j /\ (exists pv, ps !! Z.to_nat j = Some pv /\ active_at pv i) /\
    j < Z.of_nat (length (v_w v)) /\ (adam = true -> j < Z.of_nat (length (v_t v))).
Proof.
  induction pairs as [|p pairs IH]; intros v ps r; cbn [foldM map]; [set_solver|].
  destruct (ref_backprop_step adam lr i (v, ps) p) as [[v1 ps1]|] eqn:E; cbn [mbind res_bind]; [|done].
  intros H j. apply step_inv in E as (Hj & (pv & d & Hp & Ha & ->) & Hw & Ht & _ & Hl1 & Hl2).
  rewrite elem_of_cons. intros [->|Hin]; [eauto 10|].
  destruct (IH _ _ _ H j Hin) as (Hj' & (pv' & Hp' & Ha') & Hw' & Ht'). rewrite Hl1 in Hw'. rewrite Hl2 in Ht'.
  split; [done|]. split; [|done].
  destruct (decide (Z.to_nat j = Z.to_nat (iv_index p))) as [E|Hne].
  - rewrite E in *. eauto.
  - rewrite list_lookup_insert_ne in Hp' by done. eauto.
Qed.

Lemma loop_total adam lr i pairs : forall v ps s, sget (v_slots v) i = Ok s ->
  (forall j, j ∈ map iv_index pairs ->
    0 <= j /\ (exists pv, ps !! Z.to_nat j = Some pv /\ active_at pv i) /\
    j < Z.of_nat (length (v_w v)) /\ (adam = true -> j < Z.of_nat (length (v_t v)))) ->
  exists r, foldM (ref_backprop_step adam lr i) (v, ps) pairs = Ok r.
Proof.
  induction pairs as [|p pairs IH]; intros v ps s Hs Hok; cbn [map foldM] in *; [eauto|].
  destruct (Hok (iv_index p)) as (Hj & (pv & Hpv & s1 & Hs1 & Hon) & Hw & Ht); [set_solver|].
  rewrite (step_ok adam lr v ps i p s pv s1 Hs Hj Hpv Hs1 Hon Hw Ht). cbn [mbind res_bind].
  eapply (IH _ _ s); [by destruct adam|]. intros j Hin.
  destruct (Hok j) as (Hj' & (pv' & Hp' & Ha') & Hw' & Ht'); [set_solver|]. split; [done|]. split.
  - destruct (decide (Z.to_nat j = Z.to_nat (iv_index p))) as [E|Hne].
    + rewrite E in *. rewrite list_lookup_insert by (by eapply lookup_lt_Some). eexists. split; [done|].
      apply active_add_delta. by exists s1.
    + rewrite list_lookup_insert_ne by done. eauto.
  - destruct adam; cbn; rewrite ?insert_length; done.
Qed.

Lemma ref_backprop_returns adam lr v ps pairs i :
  (exists r, ref_backprop adam lr v ps pairs i = Ok r) <-> backprop_ok adam v ps (map iv_index pairs) i.
Proof.
  unfold ref_backprop. split.
  - intros [r H]. destruct (sget (v_slots v) i) as [s|] eqn:Es; cbn [mbind res_bind] in H; [|done].
    destruct (on s) eqn:Eo; cbn [negb] in H; [|done].
    destruct (foldM _ _ _) as [[v' ps']|] eqn:Ef; cbn [mbind res_bind] in H; [|done].
    split; [by exists s|]. by eapply active_loop.
  - intros [(s & Hs & Hon) Hok]. rewrite Hs. cbn [mbind res_bind]. rewrite Hon. cbn [negb].
    destruct (loop_total adam lr i pairs v ps s Hs Hok) as [[v' ps'] ->]. cbn [mbind res_bind]. eauto.
Qed.
