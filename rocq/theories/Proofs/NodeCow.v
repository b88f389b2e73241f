(** Copy-on-write with a cowId that owns no part of the node: nothing that existed is changed,
    except the elements of the shared slices. *)
From Verif.Proofs Require Export NodeOps.
From Coq Require Import Lia ZifyBool ZifyNat.

Lemma prefix_insert {A} (l l' : list A) i x : l `prefix_of` l' -> (length l <= i)%nat -> l `prefix_of` <[i := x]> l'.
Proof.
  intros [k ->] Hi. exists (<[(i - length l)%nat := x]> k).
  rewrite insert_app_r_alt by lia. done.
Qed.
Lemma prefix_snoc {A} (l l' : list A) x : l `prefix_of` l' -> l `prefix_of` l' ++ [x].
Proof. intros [k ->]. exists (k ++ [x]). by rewrite app_assoc. Qed.

Lemma extends_refl m : extends m m.
Proof. unfold extends. split_and!; done. Qed.
Lemma extends_trans m1 m2 m3 : extends m1 m2 -> extends m2 m3 -> extends m1 m3.
Proof. unfold extends. intros (?&?&?&?&?&?&?&?&?&?) (?&?&?&?&?&?&?&?&?&?). split_and!; by etrans. Qed.

Record iso (m m1 : mem) (c : Z) (n1 : nat) : Prop := mkIso {
  iso_ext : extends m m1;
  iso_at : exists nd b a, m_node m1 !! n1 = Some nd /\ (length (m_node m) <= n1)%nat /\
    m_ta m1 !! ts_loc (n_train nd) = Some a /\ (length (m_ta m) <= ts_loc (n_train nd))%nat /\
    m_base m1 !! n_base nd = Some b /\ (b_cowId b <> c \/ (length (m_base m) <= n_base nd)%nat) /\ b_mirror b = b_weights b /\
    Forall (fun l => exists t, m_tr m1 !! l = Some t /\ (tr_cowId t <> c \/ (length (m_tr m) <= l)%nat)) a
}.

Lemma alloc_inv {A} (region : mem -> list A) upd v m l m' : alloc region upd v m = Ok (l, m') ->
  l = length (region m) /\ m' = upd (fun r => r ++ [v]) m.
Proof. unfold alloc. by intros [= <- <-]. Qed.
Lemma store_inv {A} (region : mem -> list A) upd l v m u m' : store region upd l v m = Ok (u, m') ->
  is_Some (region m !! l) /\ m' = upd (fun r => <[l := v]> r) m.
Proof. unfold store. destruct (region m !! l); naive_solver. Qed.

Lemma clone_foreign m c n nd b trs n1 m1 : foreign m c n nd b trs -> node_cloneIfNeeded c n m = Ok (n1, m1) -> iso m m1 c n1.
Proof.
  intros [Hn Hc Hb Hbc Hal Ht Htc] H. unfold node_cloneIfNeeded in H.
  erewrite bindM_Ok in H by (by apply load_Ok). destruct (Z.eqb_spec (n_cowId nd) c); [done|].
  unfold node_clone in H.
  assert (E : (if ts_len (n_train nd) <=? 0 then mret []
         else a ← load_ta (ts_loc (n_train nd));
              mret (take (Z.to_nat (ts_len (n_train nd))) (drop (Z.to_nat (ts_off (n_train nd))) a))) m = Ok (trs, m)).
  { unfold telems in Ht. destruct (ts_len (n_train nd) <=? 0); [by injection Ht as <-|].
    destruct (m_ta m !! ts_loc (n_train nd)) eqn:Ea; cbn [mbind option_bind] in Ht; [|done].
    erewrite bindM_Ok by (by apply load_Ok). destruct (_ && _); [|done]. by injection Ht as <-. }
  erewrite bindM_Ok in H by exact E.
  apply bindM_inv in H as (ta & m2 & H1 & H2). apply alloc_inv in H1 as [-> ->]. apply alloc_inv in H2 as [-> ->].
  constructor.
  - unfold extends; cbn. split_and!; try done; by apply prefix_snoc.
  - eexists _, b, trs. cbn. rewrite lookup_app_r, Nat.sub_diag by done. split; [done|]. cbn. split; [done|].
    rewrite lookup_app_r, Nat.sub_diag by done. split; [done|]. split; [done|]. split; [done|].
    split; [by left|]. split; [done|]. eapply Forall_impl; [exact Htc|]. cbn. intros l (t & ? & ?). eauto.
Qed.

Lemma own_base_iso m m1 c n1 bp m2 : iso m m1 c n1 -> own_base c n1 m1 = Ok (bp, m2) ->
  iso m m2 c n1 /\ (length (m_base m) <= bp)%nat /\ (forall b, m_base m2 !! bp = Some b -> b_mirror b = b_weights b).
Proof.
  intros [Hx (nd & b & a & Hn & Hn1 & Ha & Hta & Hb & Hbc & Hal & HF)] H. unfold own_base in H.
  erewrite bindM_Ok in H by (by apply load_Ok). unfold base_cloneIfNeeded in H.
  apply bindM_inv in H as (p & m3 & H1 & H2). erewrite bindM_Ok in H1 by (by apply load_Ok).
  apply bindM_inv in H2 as (u & m4 & H2 & H3). injection H3 as <- <-. apply store_inv in H2 as [Hs ->].
  destruct (Z.eqb_spec (b_cowId b) c) as [E|E].
  - injection H1 as <- <-. destruct Hbc as [?|Hbc]; [done|]. split; [|split; [done|cbn; congruence]]. constructor.
    + unfold extends in *; cbn. destruct Hx as (?&?&?&?&?&?&?&?&?&?). split_and!; try done. by apply prefix_insert.
    + eexists _, b, a. cbn. rewrite list_lookup_insert by (by eapply lookup_lt_Some). split; [done|]. cbn.
      split_and!; try done. by right.
  - apply alloc_inv in H1 as [-> ->]. cbn in Hs. 
    assert (HL : (length (m_base m) <= length (m_base m1))%nat) by (apply prefix_length, Hx).
    split; [|split; [done|]]; cycle 1.
    { cbn. rewrite lookup_app_r, Nat.sub_diag by done. cbn. intros b' [= <-]. cbn. unfold copyFloat64Slice. done. }
    constructor.
    + unfold extends in *; cbn. destruct Hx as (?&?&?&?&?&?&?&?&?&?). split_and!; try done.
      * by apply prefix_snoc.
      * by apply prefix_insert.
    + eexists _, _, a. cbn. rewrite list_lookup_insert by (by eapply lookup_lt_Some). split; [done|]. cbn.
      rewrite lookup_app_r, Nat.sub_diag by done. split_and!; try done. by right.
Qed.

Lemma own_train_iso m m1 c n1 i tp m2 : iso m m1 c n1 -> own_train c n1 i m1 = Ok (tp, m2) ->
  iso m m2 c n1 /\ (length (m_tr m) <= tp)%nat.
Proof.
  intros [Hx (nd & b & a & Hn & Hn1 & Ha & Hta & Hb & Hbc & Hal & HF)] H. unfold own_train in H.
  erewrite bindM_Ok in H by (by apply load_Ok). apply bindM_inv in H as (t & m3 & H1 & H2).
  unfold tget in H1. destruct ((i <? 0) || (ts_len (n_train nd) <=? i)) eqn:Ei; [done|].
  erewrite bindM_Ok in H1 by (by apply load_Ok). unfold lift in H1.
  destruct (sget a _) as [t0|] eqn:Et; [|done]. injection H1 as <- <-. apply sget_Ok in Et as [Hi Et].
  pose proof (proj1 (Forall_forall _ _) HF t0 (elem_of_list_lookup_2 _ _ _ Et)) as (tr & Htr & Htc).
  apply bindM_inv in H2 as (t' & m4 & H1 & H2). unfold train_cloneIfNeeded in H1.
  erewrite bindM_Ok in H1 by (by apply load_Ok).
  apply bindM_inv in H2 as (u & m5 & H2 & H3). injection H3 as <- <-.
  unfold tset in H2. rewrite Ei in H2.
  assert (HL : (length (m_tr m) <= length (m_tr m1))%nat) by (apply prefix_length, Hx).
  assert (Ets : sset a (ts_off (n_train nd) + i) t' = Ok (<[Z.to_nat (ts_off (n_train nd) + i) := t']> a)).
  { apply sset_Ok. split; [|done]. apply lookup_lt_Some in Et. lia. }
  destruct (Z.eqb_spec (tr_cowId tr) c) as [E|E].
  - injection H1 as <- <-. destruct Htc as [?|Htc]; [done|].
    erewrite bindM_Ok in H2 by (by apply load_Ok). rewrite bindM_lift, Ets in H2.
    apply store_inv in H2 as [_ ->]. split; [|done]. rewrite list_insert_id by done. constructor.
    + unfold extends in *; cbn. destruct Hx as (?&?&?&?&?&?&?&?&?&?). split_and!; try done. by apply prefix_insert.
    + eexists nd, b, a. cbn. rewrite list_lookup_insert by (by eapply lookup_lt_Some). split_and!; done.
  - apply alloc_inv in H1 as [-> ->].
    erewrite bindM_Ok in H2 by (by apply load_Ok). rewrite bindM_lift, Ets in H2.
    apply store_inv in H2 as [_ ->]. split; [|done]. constructor.
    + unfold extends in *; cbn. destruct Hx as (?&?&?&?&?&?&?&?&?&?). split_and!; try done.
      * by apply prefix_snoc.
      * by apply prefix_insert.
    + eexists nd, b, _. cbn. rewrite list_lookup_insert by (by eapply lookup_lt_Some). split_and!; try done.
      apply Forall_insert.
      * eapply Forall_impl; [exact HF|]. cbn. intros l (t1 & Ht1 & ?). exists t1. split; [|done]. by apply lookup_app_l_Some.
      * eexists. rewrite lookup_app_r, Nat.sub_diag by done. split; [done|]. by right.
Qed.

Lemma base_modify_iso m m1 c n1 bp f u m2 : iso m m1 c n1 -> (length (m_base m) <= bp)%nat ->
  (forall b, b_mirror (f b) = b_mirror b /\ b_weights (f b) = b_weights b /\ b_cowId (f b) = b_cowId b) ->
  base_modify bp f m1 = Ok (u, m2) -> iso m m2 c n1.
Proof.
  intros [Hx (nd & b & a & Hn & Hn1 & Ha & Hta & Hb & Hbc & Hal & HF)] Hbp Hf H. unfold base_modify in H.
  apply bindM_inv in H as (b' & m3 & H1 & H2). apply load_inv in H1 as [H1 ->]. apply store_inv in H2 as [_ ->].
  constructor.
  - unfold extends in *; cbn. destruct Hx as (?&?&?&?&?&?&?&?&?&?). split_and!; try done. by apply prefix_insert.
  - destruct (decide (bp = n_base nd)) as [->|Hne].
    + assert (b' = b) as -> by congruence. destruct (Hf b) as (E1 & E2 & E3).
      eexists nd, (f b), a. cbn. rewrite list_lookup_insert by (by eapply lookup_lt_Some). split_and!; try done; try congruence; by right.
    + eexists nd, b, a. cbn. rewrite list_lookup_insert_ne by done. split_and!; done.
Qed.

Lemma train_modify_iso m m1 c n1 tp f u m2 : iso m m1 c n1 -> (length (m_tr m) <= tp)%nat ->
  train_modify tp f m1 = Ok (u, m2) -> iso m m2 c n1.
Proof.
  intros [Hx (nd & b & a & Hn & Hn1 & Ha & Hta & Hb & Hbc & Hal & HF)] Htp H. unfold train_modify in H.
  apply bindM_inv in H as (b' & m3 & H1 & H2). apply load_inv in H1 as [H1 ->]. apply store_inv in H2 as [_ ->].
  constructor.
  - unfold extends in *; cbn. destruct Hx as (?&?&?&?&?&?&?&?&?&?). split_and!; try done. by apply prefix_insert.
  - eexists nd, b, a. split_and!; try done. eapply Forall_impl; [exact HF|]. cbn. intros l (t & Ht & Hc).
    destruct (decide (l = tp)) as [->|Hne].
    + eexists. rewrite list_lookup_insert by (by eapply lookup_lt_Some). split; [done|]. by right.
    + eexists. rewrite list_lookup_insert_ne by done. eauto.
Qed.

(** Reads do not change the memory. *)
Lemma get_train_mem p i m t m' : get_train p i m = Ok (t, m') -> m' = m.
Proof.
  unfold get_train. intros H. apply bindM_inv in H as (nd & m1 & H1 & H2). apply load_inv in H1 as [_ ->].
  apply bindM_inv in H2 as (l & m2 & H1 & H2). apply load_inv in H2 as [_ ->].
  unfold tget in H1. destruct (_ || _); [done|]. apply bindM_inv in H1 as (a & m3 & H1 & H3). apply load_inv in H1 as [_ ->].
  unfold lift in H3. destruct (sget _ _); [|done]. by injection H3 as _ <-.
Qed.
Lemma get_base_mem p m b m' : get_base p m = Ok (b, m') -> m' = m.
Proof.
  unfold get_base. intros H. apply bindM_inv in H as (nd & m1 & H1 & H2). apply load_inv in H1 as [_ ->].
  by apply load_inv in H2 as [_ ->].
Qed.
Lemma fget_mem s i m x m' : fget s i m = Ok (x, m') -> m' = m.
Proof.
  unfold fget. destruct (_ || _); [done|]. intros H. apply bindM_inv in H as (a & m3 & H1 & H3). apply load_inv in H1 as [_ ->].
  unfold lift in H3. destruct (sget _ _); [|done]. by injection H3 as _ <-.
Qed.
Lemma fread_mem s m x m' : fread s m = Ok (x, m') -> m' = m.
Proof.
  unfold fread. destruct (_ <=? _); [by intros [= _ <-]|]. intros H. apply bindM_inv in H as (a & m3 & H1 & H3). apply load_inv in H1 as [_ ->].
  by injection H3 as _ <-.
Qed.
Lemma mfold_mem {S A} (f : S -> A -> M S) xs : (forall s x m s' m', f s x m = Ok (s', m') -> m' = m) ->
  forall s m s' m', mfold f s xs m = Ok (s', m') -> m' = m.
Proof.
  intros Hf. induction xs as [|x xs IH]; intros s m s' m'; cbn [mfold].
  - by intros [= _ <-].
  - intros H. apply bindM_inv in H as (s1 & m1 & H1 & H2). apply Hf in H1 as ->. by eapply IH.
Qed.

Lemma fcopy_alias_mem s m u m' : fcopy s s m = Ok (u, m') -> m' = m.
Proof.
  intros H. destruct (felems m s) as [xs|] eqn:Ef.
  - destruct (fcopy_self _ _ _ Ef) as (m1 & H1 & ->). congruence.
  - exfalso. revert H. unfold fcopy. unfold felems in Ef.
    destruct (Z.leb_spec (fs_len s) 0); [done|]. cbn [orb]. intros Hc.
    apply bindM_inv in Hc as (sv & m1 & H1 & Hc). apply fread_mem in H1 as ->.
    apply bindM_inv in Hc as (a & m2 & H1 & Hc). apply load_inv in H1 as [Ha ->]. rewrite bindM_lift in Hc.
    rewrite Ha in Ef. cbn [mbind option_bind] in Ef. unfold copy_range in Hc.
    destruct ((0 <=? fs_off s) && _) eqn:E1 in Ef; [done|].
    destruct (_ && _ && _) eqn:E2 in Hc; [lia|done].
Qed.

Lemma cow_extends E m c n nd b trs pa o n' m' : foreign m c n nd b trs -> no_slice_write o = true ->
  run_op E c pa n o m = Ok (n', m') -> extends m m'.
Proof.
  intros F Ho H.
  assert (SC : forall f x, (forall b, b_mirror (f x b) = b_mirror b /\ b_weights (f x b) = b_weights b /\ b_cowId (f x b) = b_cowId b) ->
    set_scalar f c n x m = Ok (n', m') -> extends m m').
  { intros f x Hf H'. unfold set_scalar in H'. apply bindM_inv in H' as (n1 & m1 & H1 & H2).
    eapply clone_foreign in H1; [|exact F]. apply bindM_inv in H2 as (bp & m2 & H2 & H3).
    eapply own_base_iso in H2 as (H2 & Hbp & _); [|exact H1]. apply bindM_inv in H3 as (u & m3 & H3 & H4).
    injection H4 as <- <-. eapply base_modify_iso in H3; [by apply H3|exact H2|done|done]. }
  destruct o; try done; cbn [run_op] in H; try (by eapply SC; [|exact H]).
  - unfold node_CopyWeightsAndBiasFromMirror in H. apply bindM_inv in H as (n1 & m1 & H1 & H2).
    eapply clone_foreign in H1; [|exact F]. apply bindM_inv in H2 as (bp & m2 & H2 & H3).
    eapply own_base_iso in H2 as (H2 & Hbp & Hal); [|exact H1]. apply bindM_inv in H3 as (b1 & m3 & H3 & H4).
    apply load_inv in H3 as [H3 ->]. apply bindM_inv in H4 as (u & m4 & H4 & H5).
    rewrite (Hal _ H3) in H4. apply fcopy_alias_mem in H4 as ->.
    apply bindM_inv in H5 as (u' & m5 & H5 & H6). injection H6 as <- <-.
    eapply base_modify_iso in H5; [by apply H5|exact H2|done|done].
  - apply bindM_inv in H as ([a n2] & m0 & H & H'). injection H' as <- <-.
    unfold node_GetActivation in H. apply bindM_inv in H as (b0 & m1 & H0 & H). apply get_base_mem in H0 as ->.
    destruct (_ <? _); [done|]. apply bindM_inv in H as (n1 & m1 & H1 & H).
    eapply clone_foreign in H1; [|exact F]. apply bindM_inv in H as (tp & m2 & H2 & H).
    eapply own_train_iso in H2 as [H2 Htp]; [|exact H1]. apply bindM_inv in H as (t & m3 & H3 & H).
    apply load_inv in H3 as [_ ->]. apply bindM_inv in H as (u & m4 & H3 & H).
    assert (H4 : iso m m4 c n1).
    { destruct (inactive t); [|by injection H3 as _ <-].
      apply bindM_inv in H3 as (u1 & m5 & H3 & H5). eapply train_modify_iso in H3; [|exact H2|done].
      apply bindM_inv in H5 as (u2 & m6 & H5 & H6). injection H6 as _ <-. by eapply own_base_iso in H5 as [? _]. }
    apply bindM_inv in H as (b1 & m5 & H5 & H). apply get_base_mem in H5 as ->.
    apply bindM_inv in H as (sum & m5 & H5 & H). apply mfold_mem in H5 as ->.
    2:{ intros s x m5' s' m6 H'. apply bindM_inv in H' as (w & m7 & H7 & H8). apply fget_mem in H7 as ->. by injection H8 as _ <-. }
    apply bindM_inv in H as (u5 & m5 & H5 & H). eapply train_modify_iso in H5; [|exact H4|done].
    apply bindM_inv in H as (a' & m6 & H6 & H). injection H as _ _ <-.
    destruct (b_type b1); [destruct (fltb _ _)|..]; try done; try (injection H6 as _ <-; apply H5).
    apply bindM_inv in H6 as (u6 & m7 & H6 & H7). injection H7 as _ <-. eapply train_modify_iso in H6; [apply H6|exact H5|done].
  - unfold node_SetlastActivation in H. apply bindM_inv in H as (n1 & m1 & H1 & H2).
    eapply clone_foreign in H1; [|exact F]. apply bindM_inv in H2 as (tp & m2 & H2 & H3).
    eapply own_train_iso in H2 as [H2 Htp]; [|exact H1]. apply bindM_inv in H3 as (u & m3 & H3 & H4).
    injection H4 as <- <-. eapply train_modify_iso in H3; [by apply H3|exact H2|done].
  - unfold node_IncrementDelta in H. apply bindM_inv in H as (t0 & m0 & H0 & H). apply get_train_mem in H0 as ->.
    destruct (inactive t0); [done|]. destruct (fleb _ _); [injection H as <- <-; apply extends_refl|].
    apply bindM_inv in H as (n1 & m1 & H1 & H2).
    eapply clone_foreign in H1; [|exact F]. apply bindM_inv in H2 as (tp & m2 & H2 & H3).
    eapply own_train_iso in H2 as [H2 Htp]; [|exact H1]. apply bindM_inv in H3 as (u & m3 & H3 & H4).
    injection H4 as <- <-. eapply train_modify_iso in H3; [by apply H3|exact H2|done].
  - unfold node_ComputeExtaStatsForSoftMax in H. apply bindM_inv in H as (t0 & m0 & H0 & H). apply get_train_mem in H0 as ->.
    destruct (inactive t0); [done|].
    apply bindM_inv in H as (n1 & m1 & H1 & H2).
    eapply clone_foreign in H1; [|exact F]. apply bindM_inv in H2 as (tp & m2 & H2 & H3).
    eapply own_train_iso in H2 as [H2 Htp]; [|exact H1]. apply bindM_inv in H3 as (t & m3 & H3 & H4).
    apply load_inv in H3 as [_ ->]. apply bindM_inv in H4 as (b1 & m4 & H4 & H5). apply get_base_mem in H4 as ->.
    apply bindM_inv in H5 as (u & m5 & H5 & H6).
    injection H6 as <- <-. eapply train_modify_iso in H5; [by apply H5|exact H2|done].
Qed.

Lemma extends_rep m m' c n ly v : extends m m' -> rep m c n ly v -> rep m' c n ly v.
Proof.
  intros (Hf & Htr & Hta & Hb & Hn & _) R.
  assert (HE : forall s xs, felems m s = Some xs -> felems m' s = Some xs).
  { intros s xs. unfold felems. destruct (_ <=? _); [done|]. destruct (m_f m !! fs_loc s) as [a|] eqn:E; cbn [mbind option_bind]; [|done].
    by rewrite (prefix_lookup _ _ _ _ E Hf). }
  constructor.
  - eapply prefix_lookup; [apply R|done].
  - eapply prefix_lookup; [apply R|done].
  - pose proof (rep_trs _ _ _ _ _ R) as H. revert H. unfold telems. destruct (_ <=? _); [done|].
    destruct (m_ta m !! _) as [a|] eqn:E; cbn [mbind option_bind]; [|done]. by rewrite (prefix_lookup _ _ _ _ E Hta).
  - eapply Forall2_impl; [apply R|]. cbn. intros l s H. by eapply prefix_lookup.
  - apply HE, R.
  - apply HE, R.
  - apply HE, R.
  - apply HE, R.
Qed.

(** The clone of a foreign node shares the float slices of the original. *)
Lemma own_base_foreign m c0 c n ly v : rep m c0 n ly v -> c <> c0 -> exists n1 m1 bp m2 b,
  node_cloneIfNeeded c n m = Ok (n1, m1) /\ own_base c n1 m1 = Ok (bp, m2) /\ load_base bp m2 = Ok (b, m2) /\
  b_weights b = ly_w ly /\ b_mom b = ly_mom ly /\ b_vel b = ly_vel ly /\ b_t b = ly_t ly /\
  n1 <> n /\ extends m m2 /\ m_f m2 = m_f m.
Proof.
  intros R Hc. pose proof (rep_node _ _ _ _ _ R) as Hn. pose proof (rep_base _ _ _ _ _ R) as Hb.
  pose proof (rep_trs _ _ _ _ _ R) as Ht.
  assert (Hlt : (n < length (m_node m))%nat) by (by eapply lookup_lt_Some).
  set (m1 := upd_node (fun r => r ++ [mkNode c (ly_base ly) (mkTs (length (m_ta m)) 0 (ts_len (ly_train ly)))]) (upd_ta (fun r => r ++ [ly_trs ly]) m)).
  set (B := base_clone c (mkBase c0 (v_type v) (v_batch v) (v_id v) (ly_w ly) (ly_w ly) (ly_mom ly) (ly_vel ly) (ly_t ly)
            (v_bias v) (v_tBias v) (v_momBias v) (v_velBias v) (v_mirrorBias v))).
  assert (E1 : node_cloneIfNeeded c n m = Ok (length (m_node m), m1)).
  { unfold node_cloneIfNeeded. erewrite bindM_Ok by (by apply load_Ok). cbn [n_cowId].
    destruct (Z.eqb_spec c0 c); [congruence|]. unfold node_clone. cbn [n_train n_base].
    assert (E : (if ts_len (ly_train ly) <=? 0 then mret []
         else a ← load_ta (ts_loc (ly_train ly));
              mret (take (Z.to_nat (ts_len (ly_train ly))) (drop (Z.to_nat (ts_off (ly_train ly))) a))) m = Ok (ly_trs ly, m)).
    { unfold telems in Ht. destruct (ts_len (ly_train ly) <=? 0); [by injection Ht as <-|].
      destruct (m_ta m !! ts_loc (ly_train ly)) eqn:Ea; cbn [mbind option_bind] in Ht; [|done].
      erewrite bindM_Ok by (by apply load_Ok). destruct (_ && _); [|done]. by injection Ht as <-. }
    erewrite bindM_Ok by exact E. done. }
  set (m2 := upd_node (fun r => <[length (m_node m) := mkNode c (length (m_base m)) (mkTs (length (m_ta m)) 0 (ts_len (ly_train ly)))]> r) (upd_base (fun r => r ++ [B]) m1)).
  assert (E2 : own_base c (length (m_node m)) m1 = Ok (length (m_base m), m2)).
  { assert (EN : m_node m1 !! length (m_node m) = Some (mkNode c (ly_base ly) (mkTs (length (m_ta m)) 0 (ts_len (ly_train ly)))))
      by (unfold m1; cbn; by rewrite lookup_app_r, Nat.sub_diag).
    unfold own_base. erewrite bindM_Ok by (by apply load_Ok). cbn [n_base].
    unfold base_cloneIfNeeded. unfold mbind at 1, M_bind at 1. unfold mbind at 1, M_bind at 1.
    rewrite (load_Ok m_base _ m1 _ Hb). cbn [b_cowId]. destruct (Z.eqb_spec c0 c); [congruence|].
    unfold alloc. fold B. erewrite bindM_Ok by (eapply store_Ok; cbn; exact EN). done. }
  eexists _, _, _, _, B. split; [exact E1|]. split; [exact E2|].
  split; [apply load_Ok; unfold m2; cbn; by rewrite lookup_app_r, Nat.sub_diag|].
  split_and!; try done; [lia|].
  unfold extends, m2, m1; cbn. split_and!; try done; try by apply prefix_snoc.
  apply prefix_insert; [by apply prefix_snoc|done].
Qed.

Lemma felems_prefix m m' s : m_f m' = m_f m -> felems m' s = felems m s.
Proof. unfold felems. by intros ->. Qed.

Lemma get_base_touched m m' c n ly v : rep m c n ly v -> m_node m' !! n = m_node m !! n ->
  m_base m' !! ly_base ly = m_base m !! ly_base ly ->
  exists b, get_base n m' = Ok (b, m') /\ b_weights b = ly_w ly /\ b_mom b = ly_mom ly /\ b_vel b = ly_vel ly /\ b_t b = ly_t ly.
Proof.
  intros R Hn Hb. unfold get_base. erewrite bindM_Ok by (apply load_Ok; rewrite Hn; apply R). cbn [n_base].
  erewrite load_Ok by (rewrite Hb; apply R). eexists. split; [done|]. done.
Qed.

Lemma set_slot_shared slice sl m c0 c n ly v xs i x : rep m c0 n ly v -> c <> c0 ->
  (forall b, b_weights b = ly_w ly -> b_mom b = ly_mom ly -> b_vel b = ly_vel ly -> b_t b = ly_t ly -> slice b = sl) ->
  felems m sl = Some xs -> 0 <= i < Z.of_nat (length xs) ->
  exists n' m', set_slot slice c n i x m = Ok (n', m') /\ n' <> n /\
    (b ← get_base n; fget (slice b) i) m' = Ok (x, m').
Proof.
  intros R Hc Hsl Hxs Hi. destruct (own_base_foreign _ _ _ _ _ _ R Hc) as (n1 & m1 & bp & m2 & b & E1 & E2 & E3 & ? & ? & ? & ? & Hne & HX & HF).
  pose proof (Hsl b ltac:(done) ltac:(done) ltac:(done) ltac:(done)) as Hb.
  rewrite <- (felems_prefix _ m2) in Hxs by done.
  pose proof (fset_felems _ _ _ i x Hxs) as Hs.
  assert (ES : sset xs i x = Ok (<[Z.to_nat i := x]> xs)) by (by apply sset_Ok).
  rewrite ES in Hs. destruct Hs as (m3 & Hs & He & Ht).
  exists n1, m3. split.
  { unfold set_slot. erewrite bindM_Ok by exact E1. erewrite bindM_Ok by exact E2. erewrite bindM_Ok by exact E3.
    rewrite Hb. erewrite bindM_Ok by exact Hs. done. }
  split; [done|].
  destruct (get_base_touched m2 m3 c0 n ly v) as (b' & EB & ? & ? & ? & ?).
  { by eapply extends_rep. } { by rewrite (tc_node _ _ _ _ _ Ht). } { apply (tc_base _ _ _ _ _ Ht). set_solver. }
  erewrite bindM_Ok by exact EB. rewrite (Hsl b') by done.
  rewrite (fget_felems _ _ _ i He). rewrite (proj2 (sget_Ok _ _ x)); [done|].
  split; [lia|]. apply list_lookup_insert. lia.
Qed.

Lemma perturb_shared m c0 c n ly v i d x0 : rep m c0 n ly v -> c <> c0 -> sget (v_w v) i = Ok x0 ->
  exists n' m', node_PurturbWeight c n i d m = Ok ((fadd x0 d, n'), m') /\ n' <> n /\
    (s ← node_Weights n; fget s i) m' = Ok (fadd x0 d, m').
Proof.
  intros R Hc Hx0. destruct (own_base_foreign _ _ _ _ _ _ R Hc) as (n1 & m1 & bp & m2 & b & E1 & E2 & E3 & Hb & ? & ? & ? & Hne & HX & HF).
  pose proof (rep_w _ _ _ _ _ R) as Hxs. rewrite <- (felems_prefix _ m2) in Hxs by done.
  pose proof (fadd_slot_felems _ _ _ i d Hxs) as Hs. apply sget_Ok in Hx0 as [Hi Hl].
  pose proof (lookup_lt_Some _ _ _ Hl) as Hlt.
  assert (ES : add_at (v_w v) i d = Ok (<[Z.to_nat i := fadd x0 d]> (v_w v))).
  { unfold add_at. rewrite (proj2 (sget_Ok (v_w v) i x0)) by done. cbn [mbind res_bind]. apply sset_Ok. split; [lia|done]. }
  rewrite ES in Hs. destruct Hs as (m3 & Hs & He & Ht).
  assert (EG : sget (<[Z.to_nat i := fadd x0 d]> (v_w v)) i = Ok (fadd x0 d)).
  { apply sget_Ok. split; [done|]. by apply list_lookup_insert. }
  exists n1, m3. split.
  { unfold node_PurturbWeight. erewrite bindM_Ok by exact E1. erewrite bindM_Ok by exact E2. erewrite bindM_Ok by exact E3.
    rewrite Hb. erewrite bindM_Ok by exact Hs. rewrite (bindM_Ok_or _ _ m3 _ (fget_felems _ _ _ i He)). by rewrite EG. }
  split; [done|].
  destruct (get_base_touched m2 m3 c0 n ly v) as (b' & EB & Hb' & ? & ? & ?).
  { by eapply extends_rep. } { by rewrite (tc_node _ _ _ _ _ Ht). } { apply (tc_base _ _ _ _ _ Ht). set_solver. }
  unfold node_Weights, mbind, M_bind. rewrite EB. cbn. rewrite Hb', (fget_felems _ _ _ i He), EG. done.
Qed.
