From Verif.Model Require Import Fifo.
From Verif.Spec Require Import FifoSpec.
From Verif.Proofs Require Import BaseProofs.
From Coq Require Import ZifyBool ZifyNat Lia.
Ltac Zify.zify_post_hook ::= Z.div_mod_to_equations.

Lemma land_mask z : Z.land z fifo_bitMask = z mod 128.
Proof. unfold fifo_bitMask, fifo_bucketSize. change (128 - 1) with (Z.ones 7). by rewrite Z.land_ones. Qed.

Lemma newest_snoc h x j v :
  newest_in_slot (h ++ [x]) j v <->
  if decide (length h mod 128 = j)%nat then v = x else newest_in_slot h j v.
Proof.
  unfold newest_in_slot. split.
  - intros (i & Hi & Hm & Hlast). case_decide as Hd.
    + apply lookup_app_Some in Hi as [Hi | [Hge Hi]].
      * apply lookup_lt_Some in Hi. exfalso. apply (Hlast (length h)); [|done].
        rewrite app_length; simpl; lia.
      * apply list_lookup_singleton_Some in Hi as [_ ->]. done.
    + apply lookup_app_Some in Hi as [Hi | [Hge Hi]].
      * exists i. split; [done|]. split; [done|]. intros i' Hi'. apply Hlast.
        rewrite app_length; lia.
      * apply list_lookup_singleton_Some in Hi as [Hi _]. exfalso. apply Hd.
        replace (length h) with i by lia. done.
  - case_decide as Hd.
    + intros ->. exists (length h). split; [by apply list_lookup_middle|].
      split; [done|]. intros i'. rewrite app_length; simpl. lia.
    + intros (i & Hi & Hm & Hlast). exists i. split.
      * by apply lookup_app_l_Some.
      * split; [done|]. intros i'. rewrite app_length; simpl; intros Hi'.
        destruct (decide (i' = length h)) as [->|]; [done|]. apply Hlast. lia.
Qed.

Lemma newest_functional h j v w :
  newest_in_slot h j v -> newest_in_slot h j w -> v = w.
Proof.
  intros (i & Hi & Hm & Hl) (i' & Hi' & Hm' & Hl').
  destruct (Nat.lt_trichotomy i i') as [H|[->|H]].
  - exfalso. apply (Hl i'); [|done]. split; [done|]. by eapply lookup_lt_Some.
  - congruence.
  - exfalso. apply (Hl' i); [|done]. split; [done|]. by eapply lookup_lt_Some.
Qed.

Lemma newest_lt h j v : newest_in_slot h j v -> (j < length h `min` 128)%nat.
Proof.
  intros (i & Hi & Hm & _). apply lookup_lt_Some in Hi. lia.
Qed.

Lemma last_written_snoc w j k x v :
  last_written (w ++ [(k, x)]) j v <->
  if decide (k = j) then v = x else last_written w j v.
Proof.
  unfold last_written. split.
  - intros (b & a & E & Ha).
    destruct a as [|y a] using rev_ind.
    + change (b ++ [(j, v)]) with (b ++ [(j,v)]) in E. apply app_inj_tail in E as [_ [= -> ->]].
      by rewrite decide_True.
    + rewrite app_comm_cons, app_assoc in E. apply app_inj_tail in E as [-> <-].
      rewrite decide_False.
      * exists b, a. split; [done|]. intros y Hy. apply (Ha y). set_solver.
      * intros ->. apply (Ha x). set_solver.
  - case_decide as Hd.
    + intros ->. subst. exists w, []. split; [done|]. set_solver.
    + intros (b & a & -> & Ha). exists b, (a ++ [(k, x)]). split.
      * by rewrite <-app_assoc.
      * intros y [Hy|Hy]%elem_of_app; [by eapply Ha|]. set_solver.
Qed.

Lemma last_written_functional w j v v' :
  last_written w j v -> last_written w j v' -> v = v'.
Proof.
  induction w as [|[k x] w IH] using rev_ind.
  - intros (b & a & E & _). by destruct b.
  - rewrite !last_written_snoc. case_decide; [congruence|auto].
Qed.

Lemma adds_snoc ops o :
  adds_since_reset (ops ++ [o]) =
  match o with FAdd id => adds_since_reset ops ++ [id] | FReset => [] end.
Proof. unfold adds_since_reset. by rewrite fold_left_snoc. Qed.

Definition sw_aux (ops : list fifo_op) : nat * list (nat * Z) :=
  fold_left (fun '(k, w) o =>
         match o with
         | FAdd id => (S k, w ++ [((k mod 128)%nat, id)])
         | FReset => (0%nat, w)
         end) ops (0%nat, []).

Lemma sw_aux_fst ops : fst (sw_aux ops) = length (adds_since_reset ops).
Proof.
  induction ops as [|o ops IH] using rev_ind; [done|].
  unfold sw_aux in *. rewrite fold_left_snoc, adds_snoc.
  destruct (fold_left _ _ _) as [k w]. simpl in *.
  destruct o; simpl; rewrite ?app_length; simpl; lia.
Qed.

Lemma writes_snoc ops o :
  slot_writes (ops ++ [o]) =
  match o with
  | FAdd id => slot_writes ops ++ [((length (adds_since_reset ops) mod 128)%nat, id)]
  | FReset => slot_writes ops
  end.
Proof.
  pose proof (sw_aux_fst ops) as H. unfold slot_writes, sw_aux in *.
  rewrite fold_left_snoc. destruct (fold_left _ _ _) as [k w]. simpl in *. subst k.
  by destruct o.
Qed.

(** Representation invariant, relative to the history of mutating calls. *)
Record FInv (ops : list fifo_op) (b : FifoBucket) : Prop := {
  fi_arr : length (fb_arr b) = 128%nat;
  fi_len : fb_len b = (length (adds_since_reset ops) `min` 128)%nat;
  fi_count : fb_count b = wrap64 (Z.of_nat (length (adds_since_reset ops)));
  fi_mem : forall j v, (j < 128)%nat ->
     fb_arr b !! j = Some v <->
     last_written (slot_writes ops) j v \/
     (v = 0 /\ forall y, ~ last_written (slot_writes ops) j y);
  fi_ring : forall j v, (j < fb_len b)%nat ->
     fb_arr b !! j = Some v <-> newest_in_slot (adds_since_reset ops) j v;
}.

Lemma FInv_init : FInv [] fifo_New.
Proof.
  split; try done.
  - intros j v Hj. unfold fifo_New; cbn [fb_arr]. change (Z.to_nat fifo_bucketSize) with 128%nat.
    rewrite lookup_replicate. split.
    + intros [-> _]. right. split; [done|]. intros y (b & a & E & _). by destruct b.
    + intros [(b & a & E & _)|[-> _]]; [by destruct b|done].
  - intros j v Hj. simpl in Hj. lia.
Qed.

Lemma fifo_Add_spec ops b id :
  FInv ops b ->
  exists b', fifo_Add b id = Ok (Z.of_nat (length (adds_since_reset ops) mod 128), b')
          /\ FInv (ops ++ [FAdd id]) b'
          /\ fb_arr b' = <[(length (adds_since_reset ops) mod 128)%nat := id]> (fb_arr b).
Proof.
  intros HI. destruct HI as [Ha Hl Hc Hm Hr].
  set (n := length (adds_since_reset ops)) in *.
  assert (Hslot : (n mod 128 < 128)%nat) by lia.
  assert (Hwr : forall j v, (j < 128)%nat ->
     <[(n mod 128)%nat:=id]> (fb_arr b) !! j = Some v <->
     last_written (slot_writes (ops ++ [FAdd id])) j v \/
     (v = 0 /\ forall y, ~ last_written (slot_writes (ops ++ [FAdd id])) j y)).
  { intros j v Hj. rewrite writes_snoc. fold n.
    destruct (decide (n mod 128 = j)%nat) as [<-|Hne].
    - rewrite list_lookup_insert by lia. rewrite last_written_snoc, decide_True by done.
      split.
      + intros [= <-]. by left.
      + intros [->|[_ H]]; [done|]. exfalso. apply (H id).
        by rewrite last_written_snoc, decide_True.
    - rewrite list_lookup_insert_ne by done. rewrite Hm by done.
      assert (HH : forall y, last_written (slot_writes ops ++ [((n mod 128)%nat, id)]) j y
                <-> last_written (slot_writes ops) j y).
      { intros y. by rewrite last_written_snoc, decide_False by done. }
      rewrite HH. setoid_rewrite HH. done. }
  assert (Hri : forall j v, (j < S n `min` 128)%nat ->
     <[(n mod 128)%nat:=id]> (fb_arr b) !! j = Some v <->
     newest_in_slot (adds_since_reset (ops ++ [FAdd id])) j v).
  { intros j v Hj. rewrite adds_snoc, newest_snoc. fold n.
    case_decide as Hd.
    - subst j. rewrite list_lookup_insert by lia. naive_solver.
    - rewrite list_lookup_insert_ne by done. apply Hr. rewrite Hl.
      destruct (decide (n < 128)%nat); [|lia].
      enough (j <> n) by lia. intros ->. apply Hd. rewrite Nat.mod_small; lia. }
  unfold fifo_Add. rewrite Hl.
  destruct (Z.eqb_spec (Z.of_nat (n `min` 128)) fifo_bucketSize) as [E|E];
    unfold fifo_bucketSize in E.
  - rewrite land_mask, Hc.
    change 128 with (2^7). rewrite wrap64_mod by lia. change (2^7) with 128.
    rewrite (proj2 (andb_true_iff _ _)) by lia.
    replace (Z.of_nat n mod 128) with (Z.of_nat (n mod 128)) by lia.
    eexists. split; [done|]. rewrite Nat2Z.id. split; [|done].
    split; cbn [fb_arr fb_len fb_count].
    + by rewrite insert_length.
    + rewrite adds_snoc, app_length. fold n. simpl. lia.
    + rewrite adds_snoc, app_length. fold n. simpl length.
      rewrite wrap64_wrap64_succ. f_equal. lia.
    + apply Hwr.
    + intros j v Hj. apply Hri. lia.
  - unfold fifo_append. rewrite Hl, Ha.
    rewrite decide_True by lia.
    assert (Hn : (n < 128)%nat) by lia.
    replace (n `min` 128)%nat with n by lia.
    rewrite (Nat.mod_small n 128) in * by lia.
    eexists. split; [done|]. split; [|done].
    split; cbn [fb_arr fb_len fb_count].
    + by rewrite insert_length.
    + rewrite adds_snoc, app_length. fold n. simpl. lia.
    + rewrite adds_snoc, app_length. fold n. simpl length. rewrite Hc.
      rewrite wrap64_wrap64_succ. f_equal. lia.
    + apply Hwr.
    + intros j v Hj. apply Hri. lia.
Qed.

Lemma fifo_Reset_spec ops b : FInv ops b -> FInv (ops ++ [FReset]) (fifo_Reset b).
Proof.
  intros [Ha Hl Hc Hm Hr]. split; rewrite ?writes_snoc, ?adds_snoc; try done.
  simpl. intros; lia.
Qed.

Lemma fifo_run_from ops0 b0 ops :
  FInv ops0 b0 -> exists b, fifo_run b0 ops = Ok b /\ FInv (ops0 ++ ops) b.
Proof.
  intros H0. induction ops as [|o ops IH] using rev_ind.
  - rewrite app_nil_r. eexists. split; [done|done].
  - destruct IH as (b & Hb & HI). unfold fifo_run in *. rewrite foldM_snoc, Hb.
    rewrite app_assoc. destruct o as [id|]; simpl.
    + destruct (fifo_Add_spec _ _ id HI) as (b' & E & HI' & _).
      rewrite E. simpl. eauto.
    + eexists. split; [done|]. by apply fifo_Reset_spec.
Qed.

Lemma fifo_run_spec ops : exists b, fifo_run fifo_New ops = Ok b /\ FInv ops b.
Proof. apply (fifo_run_from [] _ ops FInv_init). Qed.

Lemma fifo_run_inv ops b : fifo_run fifo_New ops = Ok b -> FInv ops b.
Proof. intros H. destruct (fifo_run_spec ops) as (b' & E & HI). congruence. Qed.

Lemma fifo_contents_length ops b :
  FInv ops b -> length (fifo_contents b) = (length (adds_since_reset ops) `min` 128)%nat.
Proof.
  intros [Ha Hl _ _ _]. unfold fifo_contents, view_read, fifo_GetAll; simpl.
  rewrite take_length, Ha, Hl. lia.
Qed.

Lemma fifo_contents_lookup ops b j v :
  FInv ops b -> fifo_contents b !! j = Some v <-> newest_in_slot (adds_since_reset ops) j v.
Proof.
  intros HI. pose proof (fifo_contents_length _ _ HI) as Hlen.
  destruct (decide (j < fb_len b)%nat) as [Hj|Hj].
  - unfold fifo_contents, view_read, fifo_GetAll; simpl.
    rewrite lookup_take by done. by apply HI.
  - split.
    + intros H%lookup_lt_Some. rewrite Hlen in H. destruct HI; lia.
    + intros H%newest_lt. destruct HI; lia.
Qed.

Lemma fifo_ring_correct ops :
  exists b, fifo_run fifo_New ops = Ok b /\
    length (fifo_contents b) = Nat.min (length (adds_since_reset ops)) 128 /\
    forall j v, fifo_contents b !! j = Some v <-> newest_in_slot (adds_since_reset ops) j v.
Proof.
  destruct (fifo_run_spec ops) as (b & E & HI). exists b. split; [done|]. split.
  - by apply fifo_contents_length.
  - intros. by apply fifo_contents_lookup.
Qed.

Lemma fifo_Retrieve_spec ops b i :
  FInv ops b ->
  fifo_Retrieve b i =
    if 128 <=? i then Ok (-1)
    else if i <? 0 then Panic PIndex
    else match fifo_contents b !! Z.to_nat i with Some v => Ok v | None => Ok 0 end.
Proof.
  intros HI. pose proof (fifo_contents_length _ _ HI) as Hlen.
  assert (Hl : fb_len b = length (fifo_contents b)) by (destruct HI; lia).
  unfold fifo_Retrieve. change fifo_bucketSize with 128.
  destruct (Z.leb_spec 128 i); [done|].
  destruct (Z.leb_spec (Z.of_nat (fb_len b)) i).
  - destruct (Z.ltb_spec i 0); [lia|]. rewrite lookup_ge_None_2 by lia. done.
  - unfold sget. destruct (Z.ltb_spec i 0); [done|].
    destruct (lookup_lt_is_Some_2 (fifo_contents b) (Z.to_nat i)) as [v Hv]; [lia|].
    unfold fifo_contents, view_read, fifo_GetAll in Hv. simpl in Hv.
    unfold fifo_contents, view_read, fifo_GetAll; simpl. by rewrite Hv.
Qed.

Lemma adds_app_adds ops ids :
  adds_since_reset (ops ++ (FAdd <$> ids)) = adds_since_reset ops ++ ids.
Proof.
  induction ids as [|x ids IH] using rev_ind.
  - simpl. by rewrite !app_nil_r.
  - rewrite fmap_app, app_assoc. cbn [fmap list_fmap]. rewrite adds_snoc, IH, app_assoc. done.
Qed.

Lemma fifo_Retrieve_newest ops b j v :
  FInv ops b -> newest_in_slot (adds_since_reset ops) j v ->
  fifo_Retrieve b (Z.of_nat j) = Ok v.
Proof.
  intros HI Hn. rewrite (fifo_Retrieve_spec _ _ _ HI).
  pose proof (newest_lt _ _ _ Hn).
  destruct (Z.leb_spec 128 (Z.of_nat j)); [lia|].
  destruct (Z.ltb_spec (Z.of_nat j) 0); [lia|].
  rewrite Nat2Z.id. apply (fifo_contents_lookup _ _ _ _ HI) in Hn. by rewrite Hn.
Qed.

Lemma newest_app_short h x ids :
  (length ids < 128)%nat -> newest_in_slot (h ++ x :: ids) (length h mod 128) x.
Proof.
  intros Hlen. exists (length h). split; [by apply list_lookup_middle|].
  split; [done|]. intros i'. rewrite app_length. cbn [length]. lia.
Qed.

Lemma fifo_add_readback ops id ids :
  (length ids < 128)%nat ->
  exists b j b1 b2, fifo_run fifo_New ops = Ok b /\
    fifo_Add b id = Ok (j, b1) /\ 0 <= j < 128 /\
    fifo_run b1 (FAdd <$> ids) = Ok b2 /\
    fifo_Retrieve b2 j = Ok id /\
    (length ids = 127%nat -> forall id', exists b3, fifo_Add b2 id' = Ok (j, b3) /\
       fifo_Retrieve b3 j = Ok id').
Proof.
  intros Hlen. destruct (fifo_run_spec ops) as (b & Eb & HI).
  destruct (fifo_Add_spec _ _ id HI) as (b1 & E1 & HI1 & _).
  destruct (fifo_run_from _ _ (FAdd <$> ids) HI1) as (b2 & E2 & HI2).
  set (n := length (adds_since_reset ops)) in *.
  exists b, (Z.of_nat (n mod 128)), b1, b2.
  assert (Hadds : adds_since_reset ((ops ++ [FAdd id]) ++ (FAdd <$> ids)) = adds_since_reset ops ++ id :: ids).
  { rewrite adds_app_adds, adds_snoc. by rewrite <-app_assoc. }
  split; [done|]. split; [done|]. split; [lia|]. split; [done|]. split.
  - eapply fifo_Retrieve_newest; [exact HI2|]. rewrite Hadds. by apply newest_app_short.
  - intros H127 id'. destruct (fifo_Add_spec _ _ id' HI2) as (b3 & E3 & HI3 & _).
    rewrite Hadds, app_length in E3. cbn [length] in E3. fold n in E3.
    replace ((n + S (length ids)) mod 128)%nat with (n mod 128)%nat in E3 by lia.
    exists b3. split; [done|]. eapply fifo_Retrieve_newest; [exact HI3|].
    rewrite adds_snoc, newest_snoc, Hadds, decide_True; [done|].
    rewrite app_length. cbn [length]. fold n. lia.
Qed.

Lemma fifo_view_live ops1 ops2 :
  exists b1 b2, fifo_run fifo_New ops1 = Ok b1 /\ fifo_run b1 ops2 = Ok b2 /\
    let v := fifo_GetAll b1 in
    length (view_read b2 v) = Nat.min (length (adds_since_reset ops1)) 128 /\
    (forall j x, view_read b2 v !! j = Some x ->
        last_written (slot_writes (ops1 ++ ops2)) j x) /\
    (forall j, (forall y, (j, y) ∉ drop (length (slot_writes ops1)) (slot_writes (ops1 ++ ops2))) ->
        view_read b2 v !! j = view_read b1 v !! j).
Proof.
  destruct (fifo_run_spec ops1) as (b1 & E1 & HI1).
  destruct (fifo_run_from _ _ ops2 HI1) as (b2 & E2 & HI2).
  exists b1, b2. split; [done|]. split; [done|]. cbv zeta.
  assert (Hpre : forall ops, slot_writes ops1 `prefix_of` slot_writes (ops1 ++ ops)).
  { induction ops as [|o ops IH] using rev_ind; [by rewrite app_nil_r|].
    rewrite app_assoc, writes_snoc. destruct o; [|done]. by apply prefix_app_r. }
  assert (Hlw : forall w w' j x, last_written w j x -> (forall y, (j,y) ∉ w') -> last_written (w ++ w') j x).
  { intros w w' j x (bf & af & -> & Ha) Hw. exists bf, (af ++ w'). split.
    - by rewrite <-app_assoc.
    - intros y [?|?]%elem_of_app; [by eapply Ha|by eapply Hw]. }
  assert (Hfilled : forall j x, (j < fb_len b1)%nat -> fb_arr b1 !! j = Some x ->
     last_written (slot_writes ops1) j x).
  { intros j x Hj Hx. destruct HI1 as [Ha1 Hl1 Hc1 Hm1 Hr1].
    clear Hm1 Hc1 E1 E2 HI2. apply Hr1 in Hx; [|done]. clear -Hx.
    revert Hx. induction ops1 as [|o ops IH] using rev_ind.
    - intros (i & Hi & _). done.
    - rewrite adds_snoc, writes_snoc. destruct o as [id|].
      + rewrite newest_snoc, last_written_snoc. case_decide; [done|]. apply IH.
      + intros (i & Hi & _). done. }
  assert (Hfb : forall j, (j < fb_len b1)%nat -> exists x, last_written (slot_writes (ops1 ++ ops2)) j x
      /\ fb_arr b2 !! j = Some x).
  { intros j Hj. destruct HI2 as [Ha2 Hl2 Hc2 Hm2 Hr2].
    assert (j < 128)%nat by (destruct HI1; lia).
    destruct (lookup_lt_is_Some_2 (fb_arr b2) j) as [x Hx]; [lia|].
    exists x. split; [|done]. apply (Hm2 j x ltac:(lia)) in Hx as [?|[_ Hno]]; [done|].
    exfalso. destruct (lookup_lt_is_Some_2 (fb_arr b1) j) as [y Hy]; [destruct HI1; lia|].
    apply Hfilled in Hy; [|done]. destruct (Hpre ops2) as [w' Hw'].
    rewrite Hw' in Hno. clear -Hy Hno.
    induction w' as [|[k z] w' IH] using rev_ind.
    - apply (Hno y). by rewrite app_nil_r.
    - apply IH. intros u Hu. destruct (decide (k = j)) as [->|Hk].
      + apply (Hno z). rewrite app_assoc, last_written_snoc. by rewrite decide_True.
      + apply (Hno u). rewrite app_assoc, last_written_snoc. by rewrite decide_False. }
  split; [|split].
  - unfold view_read, fifo_GetAll; simpl. rewrite take_length.
    destruct HI1, HI2. lia.
  - intros j x. unfold view_read, fifo_GetAll; simpl. intros [Hx Hj]%lookup_take_Some.
    destruct (Hfb j Hj) as (x' & Hw & Hx'). congruence.
  - intros j Hno. unfold view_read, fifo_GetAll; simpl.
    destruct (decide (j < fb_len b1)%nat) as [Hj|Hj].
    + rewrite !lookup_take by done.
      destruct (Hfb j Hj) as (x & Hw & ->).
      destruct (lookup_lt_is_Some_2 (fb_arr b1) j) as [y Hy]; [destruct HI1; lia|].
      rewrite Hy. f_equal. apply Hfilled in Hy; [|done].
      destruct (Hpre ops2) as [w' Hw']. rewrite Hw', drop_app in Hno.
      eapply last_written_functional; [exact Hw|]. rewrite Hw'. by apply Hlw.
    + rewrite !lookup_take_ge by lia. done.
Qed.

Lemma fifo_Retrieve_total ops b j :
  fifo_run fifo_New ops = Ok b ->
  (128 <= j -> fifo_Retrieve b j = Ok (-1)) /\
  (j < 0 <-> exists p, fifo_Retrieve b j = Panic p) /\
  (0 <= j < 128 -> forall v, newest_in_slot (adds_since_reset ops) (Z.to_nat j) v -> fifo_Retrieve b j = Ok v) /\
  (Z.of_nat (length (adds_since_reset ops)) <= j < 128 -> fifo_Retrieve b j = Ok 0).
Proof.
  intros HI%fifo_run_inv. rewrite (fifo_Retrieve_spec _ _ j HI).
  destruct (Z.leb_spec 128 j); [|destruct (Z.ltb_spec j 0)].
  - split; [done|]. split; [|split; intros; lia]. split; [lia|]. intros [p Hp]; done.
  - split; [lia|]. split; [split; eauto|]. split; intros; lia.
  - split; [lia|]. split; [|split].
    + split; [lia|]. intros [p Hp]. by destruct (fifo_contents b !! Z.to_nat j).
    + intros _ v Hv. apply (fifo_contents_lookup _ _ _ _ HI) in Hv. by rewrite Hv.
    + intros Hj. rewrite lookup_ge_None_2; [done|]. rewrite (fifo_contents_length _ _ HI). lia.
Qed.
