(** The tables of the winner-take-all hashes, from the random orders. *)
From stdpp Require Import sorting.
From Verif.Spec Require Import BiasSpec HashSpec.
From Verif.Proofs Require Import ShuffleProofs WtaProofs DwtaProofs BiasCount BiasOrders BiasSets.
From Coq Require Import Lia.
Local Open Scope Z_scope.

(** * Successive shuffles *)
Fixpoint nth_order (p : nat) (a : list Z) (g : rng) : list Z * rng :=
  match p with O => (a, g) | S p => let s := nth_order p a g in shuffle s.1 s.2 end.
Lemma fisher_rng {A} i : forall (l : list A) g, (fisher_yates i l g).2 = {| rstream := rstream g; rpos := (rpos g + i)%nat |}.
Proof.
  induction i as [|i IH]; intros l g; cbn [fisher_yates]; [cbn; destruct g as [s q]; cbn; f_equal; lia|].
  unfold draw_below, draw. rewrite IH. cbn. f_equal. lia.
Qed.
Lemma fisher_agree {A} i : forall (l : list A) g g', rpos g = rpos g' -> (forall j, (rpos g <= j < rpos g + i)%nat -> rstream g j = rstream g' j) ->
  (fisher_yates i l g).1 = (fisher_yates i l g').1.
Proof.
  induction i as [|i IH]; intros l g g' HP HS; [reflexivity|]. cbn [fisher_yates]. unfold draw_below, draw. rewrite <- HP, <- (HS (rpos g)) by lia. apply IH; cbn; [done|]. intros j Hj. apply HS. lia.
Qed.
Lemma shuffle_length {A} (l : list A) g : length (shuffle l g).1 = length l.
Proof. destruct (shuffle l g) as [l' g'] eqn:E. apply shuffle_Permutation in E. by rewrite E. Qed.
Lemma nth_order_length p a g : length (nth_order p a g).1 = length a.
Proof. induction p as [|p IH]; [done|]. cbn. by rewrite shuffle_length. Qed.
Lemma nth_order_perm p a g : (nth_order p a g).1 ≡ₚ a.
Proof. induction p as [|p IH]; [done|]. cbn. destruct (shuffle _ _) as [l' g'] eqn:E. apply shuffle_Permutation in E. by rewrite E. Qed.
Lemma nth_order_rng p a g : (nth_order p a g).2 = {| rstream := rstream g; rpos := (rpos g + p * Nat.pred (length a))%nat |}.
Proof.
  induction p as [|p IH]; [cbn; destruct g; cbn; f_equal; lia|]. cbn [nth_order]. unfold shuffle. rewrite fisher_rng, IH, nth_order_length. cbn. f_equal. lia.
Qed.
Lemma nth_order_agree p a g g' : rpos g = rpos g' -> (forall j, (rpos g <= j < rpos g + p * Nat.pred (length a))%nat -> rstream g j = rstream g' j) ->
  (nth_order p a g).1 = (nth_order p a g').1.
Proof.
  intros HP. induction p as [|p IH]; intros HS; [done|]. cbn [nth_order]. rewrite IH by (intros j Hj; apply HS; lia). unfold shuffle. rewrite !nth_order_length.
  apply fisher_agree; rewrite !nth_order_rng; cbn [rpos rstream]; [by rewrite HP|]. intros j Hj. apply HS. set (w := Nat.pred (length a)) in *. clearbody w. pose proof (Nat.le_0_l (p * w)). nia.
Qed.
Definition orders (k : nat) (a : list Z) (g : rng) : list (list Z) := map (fun p => (nth_order (S p) a g).1) (seq 0 k).
Lemma orders_snoc k a g : orders (S k) a g = orders k a g ++ [(nth_order (S k) a g).1].
Proof. unfold orders. by rewrite seq_S, map_app. Qed.

(** * The tables *)
Lemma wta_shuffle_orders n k g :
  0 < n -> 0 <= k -> n * k < 2^62 ->
  exists nArray g',
    foldM (wta_shuffle_step n) (seqZ 0 n, replicate (Z.to_nat (n * k)) 0, g) (seqZ 0 k)
      = Ok (nArray, concat (orders (Z.to_nat k) (seqZ 0 n) g), g').
Proof.
  intros Hn Hk Hnk.
  edestruct (foldM_inv_prefix (fun pre st => let '(nArray, indices, g0) := st in
      (nArray, g0) = nth_order (length pre) (seqZ 0 n) g /\
        indices = concat (orders (length pre) (seqZ 0 n) g) ++ replicate (Z.to_nat (n * (k - Z.of_nat (length pre)))) 0)
      (wta_shuffle_step n) (seqZ 0 k) (seqZ 0 n, replicate (Z.to_nat (n * k)) 0, g))
    as (s & Hs & HI).
  - split; [done|]. cbn. f_equal. f_equal. lia.
  - intros pre x [[nArray indices] g0] (Hno & Hix) Hpre.
    apply prefix_snoc_seqZ in Hpre as [-> Hlt]. rewrite Z.add_0_l.
    unfold wta_shuffle_step. destruct (shuffle nArray g0) as [nA g1] eqn:Esh.
    assert (HS : nth_order (S (length pre)) (seqZ 0 n) g = (nA, g1)) by (cbn [nth_order]; by rewrite <- Hno).
    assert (HnA : nA ≡ₚ seqZ 0 n) by (change nA with ((nA, g1).1); rewrite <- HS; apply nth_order_perm).
    pose proof (Permutation_seqZ_length _ n ltac:(lia) HnA) as HlA.
    set (m := Z.of_nat (length pre)) in *.
    assert (Hmn : 0 <= m * n <= n * k) by nia.
    assert (Hmn' : m * n + n <= n * k) by nia.
    rewrite (wrap64_small (m * n)) by (unfold in_int64, minInt64, maxInt64; lia).
    rewrite (wrap64_small (m * n + n)) by (unfold in_int64, minInt64, maxInt64; lia).
    assert (Hlc : length (concat (orders (length pre) (seqZ 0 n) g)) = Z.to_nat (m * n)).
    { erewrite concat_length_uniform with (n := Z.to_nat n).
      - unfold orders. rewrite map_length, seq_length. unfold m. lia.
      - apply Forall_map, Forall_forall. intros q _. rewrite nth_order_length, seqZ_length. done. }
    assert (Hli : Z.of_nat (length indices) = n * k).
    { rewrite Hix, app_length, replicate_length, Hlc. lia. }
    rewrite copy_range_full by lia. cbn [mbind res_bind].
    eexists; split; [reflexivity|]. rewrite app_length. cbn [length]. rewrite Nat.add_1_r. split; [done|].
    rewrite orders_snoc, HS. cbn [fst]. rewrite Hix, concat_app. cbn [concat]. rewrite app_nil_r.
    rewrite take_app_alt by done. rewrite <- app_assoc. f_equal. f_equal.
    replace (Z.to_nat (m * n + n)) with (length (concat (orders (length pre) (seqZ 0 n) g)) + Z.to_nat n)%nat by lia.
    rewrite <- drop_drop, drop_app, drop_replicate. f_equal. nia.
  - destruct s as [[nArray indices] g']. destruct HI as (_ & Hix).
    exists nArray, g'. rewrite Hs. rewrite seqZ_length in Hix. rewrite Hix.
    replace (Z.to_nat (n * (k - Z.of_nat (Z.to_nat k)))) with O by lia. by rewrite app_nil_r.
Qed.
Lemma wta_New_orders numHashes n g :
  0 <= numHashes -> 8 * numHashes < 2^53 -> 0 < n <= 2^53 ->
  exists t g', wta_New numHashes n g = Ok (t, g') /\ wta_numHashes t = numHashes /\
    wta_indices t = concat (orders (Z.to_nat (wta_ceil numHashes n)) (seqZ 0 n) g).
Proof.
  intros H1 H2 H3. unfold wta_New. rewrite wta_permute_ceil by done.
  pose proof (wta_ceil_bounds numHashes n H1 H2 H3) as [Hc0 Hc].
  set (k := wta_ceil numHashes n) in *. unfold make_slice.
  rewrite wrap64_small by (unfold in_int64, minInt64, maxInt64; lia).
  replace (n <? 0) with false by lia. replace (n * k <? 0) with false by lia.
  cbn [mbind res_bind]. rewrite replicate_length, Z2Nat.id by lia.
  destruct (wta_shuffle_orders n k g) as (nArray & g' & HE); [lia..|].
  rewrite HE. cbn [mbind res_bind]. eexists _, g'. split; [reflexivity|]. done.
Qed.
Lemma dwta_fold_orders n k g :
  0 < n -> 0 <= k ->
  exists nA ix pos g',
    foldM (dwta_step n) (seqZ 0 n, (replicate (Z.to_nat (n * k)) 0, replicate (Z.to_nat (n * k)) 0), g) (seqZ 0 k)
      = Ok (nA, (ix, pos), g') /\
    dtab ix pos n k (orders (Z.to_nat k) (seqZ 0 n) g).
Proof.
  intros Hn Hk.
  destruct (foldM_inv_prefix (fun pre st => let '(nA, (ix, pos), g0) := st in
      (nA, g0) = nth_order (length pre) (seqZ 0 n) g /\ dtab ix pos n k (orders (length pre) (seqZ 0 n) g))
      (dwta_step n) (seqZ 0 k)
      (seqZ 0 n, (replicate (Z.to_nat (n * k)) 0, replicate (Z.to_nat (n * k)) 0), g))
    as ([[nA [ix pos]] g'] & HE & _ & HT).
  - split; [done|]. unfold dtab. rewrite replicate_length.
    split; [lia|]. split; [lia|]. split; [constructor|]. intros p l j v Hp. done.
  - intros pre x [[nA [ix pos]] g1] (HnA & (Hl1 & Hl2 & HF & HT)) Hpre.
    apply prefix_snoc_seqZ in Hpre as [-> Hlt]. rewrite Z.add_0_l.
    unfold dwta_step. destruct (shuffle nA g1) as [nA' g2] eqn:Esh.
    assert (HS : nth_order (S (length pre)) (seqZ 0 n) g = (nA', g2)) by (cbn [nth_order]; by rewrite <- HnA).
    assert (HnA' : nA' ≡ₚ seqZ 0 n) by (change nA' with ((nA', g2).1); rewrite <- HS; apply nth_order_perm).
    destruct (dwta_fill_spec n k (Z.of_nat (length pre)) nA' ix pos) as (ix' & pos' & HE & H1 & H2 & H3 & H4);
      [lia|lia|done..|].
    rewrite HE. cbn [mbind res_bind]. eexists; split; [reflexivity|]. rewrite app_length. cbn [length]. rewrite Nat.add_1_r. split; [done|].
    rewrite orders_snoc, HS. cbn [fst].
    split; [done|]. split; [done|]. split; [apply Forall_app; split; [done|by apply Forall_singleton]|].
    intros p l j v Hp Hj. apply lookup_app_Some in Hp as [Hp|[Hp Hp']].
    + pose proof (HT _ _ _ _ Hp Hj) as [Ha Hb].
      pose proof (Forall_lookup_1 _ _ _ _ HF Hp) as Hlp.
      assert (0 <= v < n).
      { apply elem_of_list_lookup_2 in Hj. rewrite Hlp in Hj. apply elem_of_seqZ in Hj. lia. }
      apply lookup_lt_Some in Hp. unfold orders in Hp. rewrite map_length, seq_length in Hp.
      destruct (H4 (Z.of_nat p * n + v)) as [-> ->]; [nia|]. done.
    + apply list_lookup_singleton_Some in Hp' as [Hz ->]. unfold orders in Hz, Hp. rewrite map_length, seq_length in Hz, Hp.
      assert (p = length pre) as -> by lia. by apply H3.
  - exists nA, ix, pos, g'. split; [done|]. by rewrite seqZ_length in HT.
Qed.
Lemma dwta_New_orders log2 numHashes n g :
  0 <= numHashes -> 8 * numHashes < 2^53 -> 0 < n <= 2^53 ->
  exists dw g', dwta_New log2 numHashes n g = Ok (dw, g') /\
    dtab (dw_indices dw) (dw_pos dw) n (wta_ceil numHashes n) (orders (Z.to_nat (wta_ceil numHashes n)) (seqZ 0 n) g) /\ dw_permute dw = wta_ceil numHashes n.
Proof.
  intros H1 H2 H3. unfold dwta_New. rewrite wta_permute_ceil by done.
  pose proof (wta_ceil_bounds numHashes n H1 H2 H3) as [Hc0 Hc].
  set (k := wta_ceil numHashes n) in *. unfold make_slice.
  rewrite !wrap64_small by (unfold in_int64, minInt64, maxInt64; lia).
  replace (n <? 0) with false by lia. replace (n * k <? 0) with false by lia.
  cbn [mbind res_bind]. rewrite replicate_length, Z2Nat.id by lia.
  destruct (dwta_fold_orders n k g) as (nA & ix & pos & g' & HE & HT); [lia..|].
  rewrite HE. cbn [mbind res_bind]. destruct (dh_New log2 numHashes n g') as [d g'']. eexists _, g''. split; [reflexivity|]. done.
Qed.

(** * The random orders that the choices give *)
Section Enum.
  Context (n : Z) (g : rng) (p : nat) (Hn : 0 < n).
  Definition order_of (ds : list Z) : list Z := (nth_order (S p) (seqZ 0 n) (with_choices g (p * Nat.pred (Z.to_nat n)) ds)).1.
  Lemma order_of_shuffle ds : order_of ds = (shuffle (nth_order p (seqZ 0 n) g).1
    {| rstream := rstream (with_choices g (p * Nat.pred (Z.to_nat n)) ds); rpos := (rpos g + p * Nat.pred (Z.to_nat n))%nat |}).1.
  Proof.
    unfold order_of. cbn [nth_order]. rewrite nth_order_rng, seqZ_length. f_equal. f_equal.
    apply nth_order_agree; [done|]. rewrite seqZ_length. intros j Hj. unfold with_choices in *. cbn [rpos rstream] in *. by rewrite decide_True by lia.
  Qed.
  Lemma with_makes ds : choices (Z.to_nat n) ds ->
    makes {| rstream := rstream (with_choices g (p * Nat.pred (Z.to_nat n)) ds); rpos := (rpos g + p * Nat.pred (Z.to_nat n))%nat |} (Z.to_nat n) ds.
  Proof.
    intros [_ HC] k d Hk. cbn. rewrite decide_False by lia. replace (_ - _)%nat with k by lia. rewrite Hk. cbn. apply Z.mod_small. by apply HC.
  Qed.
  Lemma makes_unique G ds ds' : choices (Z.to_nat n) ds -> choices (Z.to_nat n) ds' -> makes G (Z.to_nat n) ds -> makes G (Z.to_nat n) ds' -> ds = ds'.
  Proof.
    intros [L _] [L' _] M M'. apply list_eq_same_length with (n := length ds); [lia|done|]. intros i x y _ Hx Hy. rewrite <- (M i x Hx). by rewrite <- (M' i y Hy).
  Qed.
  Lemma orders_enum : enum n (map order_of (all_choices (Z.to_nat n))).
  Proof using Hn.
    set (cur := (nth_order p (seqZ 0 n) g).1). assert (PC : cur ≡ₚ seqZ 0 n) by apply nth_order_perm.
    assert (NC : NoDup cur) by (rewrite PC; apply NoDup_seqZ). assert (LC : length cur = Z.to_nat n) by (rewrite PC; apply seqZ_length).
    split.
    - apply NoDup_fmap_2_strong; [|apply all_choices_NoDup]. intros ds ds' H1 H2 E. apply in_all_choices in H1, H2. rewrite !order_of_shuffle in E. fold cur in E.
      destruct (shuffle_fair cur (order_of ds) NC) as (d0 & C0 & HF); [rewrite PC; apply nth_order_perm|]. rewrite LC in *.
      assert (M1 := proj1 (HF _) (eq_sym (order_of_shuffle ds))). assert (M2 := proj1 (HF _) (eq_trans (eq_sym E) (eq_sym (order_of_shuffle ds)))).
      rewrite (makes_unique _ ds d0 H1 C0 (with_makes ds H1) M1). symmetry. exact (makes_unique _ ds' d0 H2 C0 (with_makes ds' H2) M2).
    - intros o. split.
      + intros H. apply elem_of_list_fmap in H as (ds & -> & _). apply nth_order_perm.
      + intros PO. destruct (shuffle_fair cur o NC) as (ds & C0 & HF); [by rewrite PC|]. rewrite LC in *. apply elem_of_list_fmap. exists ds. split; [|by apply in_all_choices].
        rewrite order_of_shuffle. symmetry. apply HF. by apply with_makes.
  Qed.
End Enum.
