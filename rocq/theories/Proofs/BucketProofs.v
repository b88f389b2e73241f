From Verif.Model Require Import Fifo Bucket.
From Verif.Spec Require Import FifoSpec.
From Verif.Proofs Require Import BaseProofs FifoProofs.
From Coq Require Import ZifyBool ZifyNat Lia.
Ltac Zify.zify_post_hook ::= Z.div_mod_to_equations.

Definition bhist (ops : list bk_op) : list Z := adds_since_reset (as_fifo_ops ops).

Lemma bhist_snoc ops o :
  bhist (ops ++ [o]) =
  match o with BAdd id => bhist ops ++ [id] | BReset => [] | BGetAll => bhist ops end.
Proof.
  unfold bhist, as_fifo_ops. rewrite omap_app. destruct o; simpl; rewrite ?adds_snoc, ?app_nil_r; done.
Qed.

Lemma bhist_length ops : (length (bhist ops) <= length ops)%nat.
Proof.
  induction ops as [|o ops IH] using rev_ind; [done|].
  rewrite bhist_snoc, app_length. destruct o; rewrite ?app_length; simpl; lia.
Qed.

Record BInv (ops : list bk_op) (b : Bucket) : Prop := {
  bi_arr : length (bk_arr b) = 128%nat;
  bi_counts : bk_counts b = Z.of_nat (length (bhist ops));
  bi_init : bk_isInit b = Z.of_nat (length (bhist ops)) - 1;
  bi_ring : forall j v, newest_in_slot (bhist ops) j v -> bk_arr b !! j = Some v;
}.

Lemma BInv_init : BInv [] bk_New.
Proof. split; try done. intros j v (i & Hi & _). done. Qed.

Lemma bk_Add_spec ops b id :
  Z.of_nat (length (bhist ops)) < 2^63 - 1 -> BInv ops b ->
  exists b', bk_Add b id = Ok (Z.of_nat (length (bhist ops)) mod 128, b') /\ BInv (ops ++ [BAdd id]) b'.
Proof.
  intros Hb [Ha Hc Hi Hr]. unfold bk_Add.
  change (bk_bucketSize - 1) with fifo_bitMask. rewrite land_mask, Hc.
  set (n := length (bhist ops)) in *.
  rewrite sset_total by lia. simpl. eexists. split; [done|].
  split; cbn [bk_arr bk_counts bk_isInit].
  - by rewrite insert_length.
  - rewrite bhist_snoc, app_length. fold n. cbn [length].
    rewrite wrap64_small by (unfold in_int64, minInt64, maxInt64; lia). lia.
  - rewrite bhist_snoc, app_length, Hi. fold n. cbn [length].
    rewrite wrap64_small by (unfold in_int64, minInt64, maxInt64; lia). lia.
  - intros j v. rewrite bhist_snoc, newest_snoc. fold n.
    replace (Z.to_nat (Z.of_nat n mod 128)) with (n mod 128)%nat by lia.
    case_decide as Hd.
    + intros ->. subst j. apply list_lookup_insert. lia.
    + intros Hn. rewrite list_lookup_insert_ne by done. by apply Hr.
Qed.

Lemma bk_Reset_spec ops b : BInv ops b -> BInv (ops ++ [BReset]) (bk_Reset b).
Proof.
  intros [Ha Hc Hi Hr]. split; unfold bk_Reset; cbn [bk_arr bk_counts bk_isInit]; rewrite ?bhist_snoc; try done.
  - unfold go_copy, bk_resetArr. change (Z.to_nat bk_bucketSize) with 128%nat.
    rewrite app_length, take_length, drop_length, replicate_length. lia.
  - intros j v (i & Hi' & _). done.
Qed.

Lemma bk_GetAll_spec ops b :
  BInv ops b ->
  exists r b', bk_GetAll b = Ok (r, b') /\ BInv (ops ++ [BGetAll]) b' /\
    (bhist ops = [] -> r = None /\ b' = b) /\
    (bhist ops <> [] -> exists l, r = Some l /\ bk_arr b' = l /\ length l = 128%nat /\
        (forall j, j <> length (bhist ops) -> l !! j = bk_arr b !! j) /\
        ((length (bhist ops) < 128)%nat -> l !! length (bhist ops) = Some (-1))).
Proof.
  intros [Ha Hc Hi Hr]. unfold bk_GetAll. rewrite Hi, Hc.
  set (n := length (bhist ops)) in *.
  destruct (Z.eqb_spec (Z.of_nat n - 1) (-1)) as [E|E].
  - assert (n = 0%nat) by lia.
    eexists _, _. split; [done|]. split; [|split].
    + split; rewrite ?bhist_snoc; try done.
    + done.
    + intros Hne. exfalso. apply Hne. by apply nil_length_inv.
  - change bk_bucketSize with 128. destruct (Z.ltb_spec (Z.of_nat n) 128).
    + rewrite sset_total by lia. simpl. eexists _, _. split; [done|].
      rewrite Nat2Z.id. split; [|split].
      * split; cbn [bk_arr bk_counts bk_isInit]; rewrite ?insert_length, ?bhist_snoc; try done.
        intros j v Hn. rewrite list_lookup_insert_ne; [by apply Hr|].
        apply newest_lt in Hn. fold n in Hn. lia.
      * intros Hnil. exfalso. unfold n in E. rewrite Hnil in E. done.
      * intros _. eexists. split; [done|]. split; [done|]. rewrite insert_length.
        split; [done|]. split.
        -- intros j Hj. by rewrite list_lookup_insert_ne by done.
        -- intros _. apply list_lookup_insert. lia.
    + simpl. eexists _, _. split; [done|]. split; [|split].
      * split; cbn [bk_arr bk_counts bk_isInit]; rewrite ?bhist_snoc; done.
      * intros Hnil. exfalso. unfold n in E. rewrite Hnil in E. done.
      * intros _. eexists. split; [done|]. split; [done|]. split; [done|]. split; [done|lia].
Qed.

Lemma bk_run_spec ops :
  Z.of_nat (length ops) < 2^63 -> exists b, bk_run bk_New ops = Ok b /\ BInv ops b.
Proof.
  induction ops as [|o ops IH] using rev_ind; intros Hlen.
  - eexists. split; [done|apply BInv_init].
  - rewrite app_length in Hlen. cbn [length] in Hlen.
    destruct IH as (b & Eb & HI); [lia|].
    unfold bk_run in *. rewrite foldM_snoc, Eb. destruct o as [id| |]; cbn [bk_step].
    + pose proof (bhist_length ops).
      destruct (bk_Add_spec ops b id ltac:(lia) HI) as (b' & -> & HI'). simpl. eauto.
    + eexists. split; [done|]. by apply bk_Reset_spec.
    + destruct (bk_GetAll_spec _ _ HI) as (r & b' & -> & HI' & _). simpl. eauto.
Qed.

Lemma bk_Retrieve_newest ops b j v :
  BInv ops b -> newest_in_slot (bhist ops) j v -> bk_Retrieve b (Z.of_nat j) = Ok v.
Proof.
  intros HI Hn. pose proof (newest_lt _ _ _ Hn).
  unfold bk_Retrieve. change bk_bucketSize with 128.
  destruct (Z.leb_spec 128 (Z.of_nat j)); [lia|]. apply sget_nat. by apply HI.
Qed.

Lemma newest_exists h j : (j < length h `min` 128)%nat -> exists v, newest_in_slot h j v.
Proof.
  induction h as [|x h IH] using rev_ind; cbn [length]; [lia|].
  rewrite app_length. cbn [length]. intros Hj.
  destruct (decide (length h mod 128 = j)%nat) as [Hd|Hd].
  - exists x. by rewrite newest_snoc, decide_True.
  - destruct IH as [v Hv].
    + destruct (decide (length h < 128)%nat); [|lia].
      rewrite Nat.mod_small in Hd; lia.
    + exists v. by rewrite newest_snoc, decide_False.
Qed.

Lemma bucket_agrees ops :
  Z.of_nat (length ops) < 2^63 - 1 ->
  exists b f, bk_run bk_New ops = Ok b /\ fifo_run fifo_New (as_fifo_ops ops) = Ok f /\
    let h := adds_since_reset (as_fifo_ops ops) in
    bk_GetSize b = Z.of_nat (length h) /\
    (forall id, exists b', bk_Add b id = Ok (Z.of_nat (length h) mod 128, b')) /\
    (forall j, 0 <= j -> j < Z.of_nat (length h) -> exists v, bk_Retrieve b j = Ok v /\ fifo_Retrieve f j = Ok v) /\
    (forall j, 128 <= j -> bk_Retrieve b j = Ok (-1)) /\
    (exists r b', bk_GetAll b = Ok (r, b') /\
       (r = None <-> h = []) /\
       (forall l, r = Some l ->
          length l = 128%nat /\
          (forall j v, newest_in_slot h j v -> l !! j = Some v) /\
          ((length h < 128)%nat -> l !! length h = Some (-1)))).
Proof.
  intros Hlen. destruct (bk_run_spec ops) as (b & Eb & HI); [lia|].
  destruct (fifo_run_spec (as_fifo_ops ops)) as (f & Ef & HF).
  exists b, f. split; [done|]. split; [done|]. cbv zeta. fold (bhist ops) in *.
  split; [apply HI|]. split; [|split; [|split]].
  - intros id. pose proof (bhist_length ops).
    destruct (bk_Add_spec ops b id ltac:(lia) HI) as (b' & -> & _). eauto.
  - intros j Hj0 Hj. destruct (decide (j < 128)).
    + destruct (newest_exists (bhist ops) (Z.to_nat j)) as [v Hv]; [lia|].
      exists v. replace j with (Z.of_nat (Z.to_nat j)) by lia. split.
      * by eapply bk_Retrieve_newest.
      * by eapply fifo_Retrieve_newest.
    + exists (-1). split.
      * unfold bk_Retrieve. change bk_bucketSize with 128. by destruct (Z.leb_spec 128 j); [|lia].
      * rewrite (fifo_Retrieve_spec _ _ _ HF). by destruct (Z.leb_spec 128 j); [|lia].
  - intros j Hj. unfold bk_Retrieve. change bk_bucketSize with 128. by destruct (Z.leb_spec 128 j); [|lia].
  - destruct (bk_GetAll_spec _ _ HI) as (r & b' & E & _ & Hnil & Hne).
    exists r, b'. split; [done|]. split.
    + split.
      * intros ->. destruct (decide (bhist ops = [])); [done|].
        destruct Hne as (l & ? & _); done.
      * intros H. by apply Hnil in H as [-> _].
    + intros l ->. destruct (decide (bhist ops = [])) as [H|H].
      { by apply Hnil in H as [? _]. }
      destruct (Hne H) as (l' & [= <-] & _ & Hl & Hsame & Hsent).
      split; [done|]. split; [|done].
      intros j v Hn. destruct (decide (j = length (bhist ops))) as [->|Hj].
      * apply newest_lt in Hn. lia.
      * rewrite Hsame by done. by apply HI.
Qed.

Lemma bucket_GetAll_frame ops b r b' j :
  Z.of_nat (length ops) < 2^63 -> bk_run bk_New ops = Ok b -> bk_GetAll b = Ok (r, b') ->
  j <> Z.of_nat (length (adds_since_reset (as_fifo_ops ops))) ->
  bk_Retrieve b' j = bk_Retrieve b j.
Proof.
  intros Hlen Eb E Hj. destruct (bk_run_spec ops Hlen) as (b0 & Eb0 & HI).
  rewrite Eb in Eb0. injection Eb0 as <-.
  destruct (bk_GetAll_spec _ _ HI) as (r' & b'' & E' & _ & Hnil & Hne).
  rewrite E in E'. injection E' as <- <-. fold (bhist ops) in *.
  destruct (decide (bhist ops = [])) as [H|H].
  - by apply Hnil in H as [_ ->].
  - destruct (Hne H) as (l & _ & Harr & Hl & Hsame & _).
    unfold bk_Retrieve. destruct (bk_bucketSize <=? j); [done|].
    unfold sget. destruct (Z.ltb_spec j 0); [done|].
    rewrite Harr, Hsame by lia. done.
Qed.

Lemma bucket_getall_impure :
  exists (ops : list bk_op) (j : Z) b r b' x y, bk_run bk_New ops = Ok b /\ bk_GetAll b = Ok (r, b') /\
    bk_Retrieve b j = Ok x /\ bk_Retrieve b' j = Ok y /\ x <> y.
Proof.
  exists [BAdd 5], 1. do 5 eexists. split; [vm_compute; reflexivity|]. split; [vm_compute; reflexivity|].
  split; [reflexivity|]. split; [reflexivity|]. done.
Qed.
