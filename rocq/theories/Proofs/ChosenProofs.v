(** The nodes that [ref_select] selects are those [InferSpec.chosen] describes. *)
From Verif.Proofs Require Export LayerModes.
From Verif.Spec Require InferSpec.
From Verif.Spec Require Import NetRef.
From stdpp Require Import sorting gmap fin_sets.
From Coq Require Import Lia ZifyBool ZifyNat.
Local Open Scope Z_scope.

(** Layers that have the same kind, order, tables and hash functions, and nodes with the same weights and biases. *)
Record alike (lv lv' : LayerView) : Prop := mkAlike {
  ak_type : lv_type lv' = lv_type lv; ak_rand : lv_rand lv' = lv_rand lv; ak_l : lv_l lv' = lv_l lv;
  ak_tables : lv_tables lv' = lv_tables lv; ak_hash : lv_hash lv' = lv_hash lv;
  ak_nodes : Forall2 (fun v v' => v_w v' = v_w v /\ v_bias v' = v_bias v) (lv_nodes lv) (lv_nodes lv')
}.
Lemma chosen_alike E lv lv' cur label sp ids : alike lv lv' ->
  InferSpec.chosen E lv' cur label sp ids -> InferSpec.chosen E lv cur label sp ids.
Proof.
  intros [A1 A2 A3 A4 A5 A6]. pose proof (Forall2_length _ _ _ A6) as HL. unfold InferSpec.chosen, target_size. rewrite A1, A2, A3, A4, A5, <- HL.
  destruct (feqb sp fone); [done|]. destruct (e_Mode E); try done. destruct (is_softmax _); [|done].
  intros (ps & rest & H1 & H2 & H3 & H4 & H5). exists ps, rest. split; [done|]. split; [done|]. split; [done|]. split; [|done].
  intros p Hp. destruct (H4 p Hp) as (v' & Hv' & HR). destruct (Forall2_lookup_r _ _ _ _ _ A6 Hv') as (v & Hv & Ew & Eb).
  exists v. rewrite Ew, Eb in HR. done.
Qed.

Lemma select_chosen E lv cur label sp g sel in_ g' : ref_select E lv cur label sp g = Ok (sel, in_, g') ->
  InferSpec.chosen E lv cur label sp (match sel with Some act => map iv_index act | None => [] end).
Proof.
  unfold ref_select, InferSpec.chosen. set (N := Z.of_nat (length (lv_nodes lv))). cbv zeta.
  destruct (feqb sp fone).
  { intros [= <- <- <-]. unfold select_all. rewrite map_map. apply map_id. }
  destruct (e_Mode E).
  - destruct (retrieve E _ _ _) as [actives|] eqn:Er; [|done]. cbn [mbind res_bind].
    destruct (select_mode1 _ _ _ _ g) as [vect g1] eqn:Es. intros [= <- <- <-].
    destruct (select_mode1_spec _ _ _ _ _ _ _ Es) as (act & -> & HN & HT & _). exists actives. rewrite map_pair0.
    split; [by apply found_iff|]. done.
  - destruct (is_softmax _); [|by intros [= <- <- <-]].
    destruct (select_mode2 _ _ _ _ _) as [[a g1]|] eqn:Es; [|done]. cbn [mbind res_bind]. intros [= <- <- <-].
    destruct (select_mode2_spec _ _ _ _ _ _ _ Es) as (rest & -> & Hl & HN & HX & HR & _). rewrite map_pair0.
    exists rest. split; [done|]. split; [done|]. split; [|exact Hl].
    rewrite Forall_forall in HX, HR |- *. intros x Hx. split; [by apply HR|by apply HX].
  - destruct (is_softmax _); [|by intros [= <- <- <-]].
    destruct (select_mode3 _ _ _ _ _) as [[a i0]|] eqn:Es; [|done]. cbn [mbind res_bind]. intros [= <- <- <-].
    destruct (select_mode3_spec _ _ _ _ _ _ _ Es) as (keys & rest & HK & Hl & ->). rewrite map_pair0.
    pose proof (sort_pairs_perm keys) as HP. pose proof (mode3_keys_index _ _ _ _ HK) as HI. rewrite map_length in HI, Hl.
    exists (sort_pairs keys), rest. split; [done|]. split; [exact Hl|]. split; [by rewrite HP, HI|]. split.
    + intros p Hp. rewrite HP in Hp. apply elem_of_list_lookup in Hp as [k Hk].
      destruct (mode3_keys_rank _ _ _ _ HK _ _ Hk) as (w & b & Hw & Hi & HR). rewrite list_lookup_fmap in Hw.
      destruct (lv_nodes lv !! k) as [v|] eqn:Ev; [|done]. injection Hw as <- <-. exists v. rewrite Hi, Nat2Z.id. rewrite <- Hi. done.
    + intros HN. apply sorted_ranked; [|done|].
      * rewrite HP, HI. apply NoDup_seqZ.
      * apply sort_pairs_sorted. unfold no_nans. by rewrite <- HP.
  - destruct (retrieve E _ _ _) as [actives|] eqn:Er; [|done]. cbn [mbind res_bind].
    destruct (select_mode4 _ _ _ _ _ _ g) as [[[a i0] g1]|] eqn:Es; [|done]. cbn [mbind res_bind]. intros [= <- <- <-].
    exists actives. split; [by apply found_iff|]. intros Hrn HL.
    destruct (select_mode4_range _ _ _ _ _ _ _ _ (Zle_0_nat _) Es) as [HN HC].
    destruct (select_mode4_total _ _ _ _ label actives g HN HL Hrn HC) as (X & g2 & Es' & HX & _ & _ & _ & _ & start & _ & Hst & Hfill).
    fold N in Es', Hst, Hfill, HX. rewrite Es in Es'. injection Es' as -> _ _. rewrite !distinct_size. exists (chosen N X), start. rewrite map_pair0.
    split; [done|]. split; [apply chosen_sorted|]. split; [rewrite Hrn, seqZ_length; unfold N in Hst; lia|].
    intros j. rewrite chosen_in by done. apply Hfill.
  - by intros [= <- <- <-].
Qed.
