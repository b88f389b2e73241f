(** LayerMode3 (layer/layer.go:382-415) and full density (292-299). *)
From Verif.Proofs Require Export SelectProofs FloatOrder.
From stdpp Require Import sorting.
From Coq Require Import Lia ZifyBool ZifyNat.
Local Open Scope Z_scope.

Definition key_lt (a b : Pair) : Prop :=
  klt (fkey (iv_value a)) (fkey (iv_value b)) \/
  fkey (iv_value a) = fkey (iv_value b) /\ iv_index a < iv_index b.

Lemma byValue_less_key a b : is_nan (iv_value a) = false -> is_nan (iv_value b) = false ->
  byValue_less a b = true <-> key_lt a b.
Proof.
  intros Ha Hb. unfold byValue_less, key_lt.
  destruct (feqb _ _) eqn:E.
  - apply feqb_key in E as (_ & _ & E). rewrite E.
    destruct (fkey (iv_value b)) as [[x y] z]. cbn. split; [intros; right; split; [done|lia]|]. intros [?|[_ ?]]; lia.
  - rewrite fltb_key. split; [tauto|]. intros [?|[H _]]; [done|].
    assert (feqb (iv_value a) (iv_value b) = true) by (by apply feqb_key). congruence.
Qed.

Definition lex (p : Pair) (x y z i : Z) : Prop := fkey (iv_value p) = (x, y, z) /\ iv_index p = i.
Lemma lex_key_lt a b x y z i x' y' z' i' : lex a x y z i -> lex b x' y' z' i' ->
  key_lt a b <-> x < x' \/ x = x' /\ (y < y' \/ y = y' /\ (z < z' \/ z = z' /\ i < i')).
Proof.
  intros [Ea <-] [Eb <-]. unfold key_lt. rewrite Ea, Eb. cbn. split.
  - intros [H|[[= -> -> ->] H]]; lia.
  - intros H. destruct (decide (x = x' /\ y = y' /\ z = z')) as [(-> & -> & ->)|]; [right; split; [done|lia]|left; lia].
Qed.
Lemma lex_ex p : exists x y z i, lex p x y z i.
Proof. unfold lex. destruct (fkey (iv_value p)) as [[x y] z]. by exists x, y, z, (iv_index p). Qed.

Lemma key_trans a b c : ~ key_lt b a -> ~ key_lt c b -> ~ key_lt c a.
Proof.
  destruct (lex_ex a) as (x & y & z & i & La), (lex_ex b) as (x' & y' & z' & i' & Lb), (lex_ex c) as (x'' & y'' & z'' & i'' & Lc).
  rewrite (lex_key_lt _ _ _ _ _ _ _ _ _ _ Lb La), (lex_key_lt _ _ _ _ _ _ _ _ _ _ Lc Lb), (lex_key_lt _ _ _ _ _ _ _ _ _ _ Lc La). lia.
Qed.

Definition not_after (a b : Pair) : Prop := byValue_less b a = false.

Lemma insert_pair_perm p xs : insert_pair p xs ≡ₚ p :: xs.
Proof.
  induction xs as [|x xs IH]; cbn [insert_pair]; [done|]. destruct (byValue_less p x); [done|].
  rewrite IH. apply Permutation_swap.
Qed.
Lemma sort_pairs_perm xs : sort_pairs xs ≡ₚ xs.
Proof. unfold sort_pairs. induction xs as [|x xs IH]; cbn [foldr]; [done|]. by rewrite insert_pair_perm, IH. Qed.

Definition no_nans (xs : list Pair) : Prop := Forall (fun p => is_nan (iv_value p) = false) xs.

Lemma key_asym a b : key_lt a b -> ~ key_lt b a.
Proof.
  destruct (lex_ex a) as (x & y & z & i & La), (lex_ex b) as (x' & y' & z' & i' & Lb).
  rewrite (lex_key_lt _ _ _ _ _ _ _ _ _ _ Lb La), (lex_key_lt _ _ _ _ _ _ _ _ _ _ La Lb). lia.
Qed.
Lemma not_after_key a b : is_nan (iv_value a) = false -> is_nan (iv_value b) = false ->
  not_after a b <-> ~ key_lt b a.
Proof. intros Ha Hb. unfold not_after. rewrite <- (byValue_less_key b a) by done. by destruct (byValue_less b a). Qed.

Lemma insert_pair_sorted p xs : is_nan (iv_value p) = false -> no_nans xs ->
  StronglySorted not_after xs -> StronglySorted not_after (insert_pair p xs).
Proof.
  intros Hp. induction xs as [|x xs IH]; intros HN HS; cbn [insert_pair].
  - constructor; [constructor|by apply Forall_nil].
  - apply Forall_cons in HN as [Hx HN]. apply StronglySorted_inv in HS as [HS HF].
    destruct (byValue_less p x) eqn:E.
    + apply byValue_less_key in E; [|done..]. constructor; [by constructor|]. apply Forall_cons. split.
      * apply not_after_key; [done..|]. by apply key_asym.
      * apply Forall_forall. intros y Hy. rewrite Forall_forall in HF. unfold no_nans in HN. rewrite Forall_forall in HN.
        apply not_after_key; [done|by apply HN|]. eapply key_trans; [by apply key_asym|].
        apply not_after_key; [done|by apply HN|by apply HF].
    + constructor; [by apply IH|]. rewrite insert_pair_perm. apply Forall_cons. split; [done|done].
Qed.
Lemma sort_pairs_sorted xs : no_nans xs -> StronglySorted not_after (sort_pairs xs).
Proof.
  unfold sort_pairs. induction xs as [|x xs IH]; intros HN; cbn [foldr]; [constructor|].
  apply Forall_cons in HN as [Hx HN]. apply insert_pair_sorted; [done| |by apply IH].
  unfold no_nans. by rewrite (sort_pairs_perm xs).
Qed.

(** The sort key of every node. *)
Definition mode3_keys (label : list Z) (cur : list Pair) (ws : list (list float64 * float64)) : res (list Pair) :=
  mapM_res (fun '(s, (w, b)) =>
      tmp ← innerproduct cur w;
      Ok (mkPair s (if intSliceContains label s then f_of_Z (-1000000000) else fneg (fadd tmp b)))) (indexed ws).

Lemma mode3_keys_index label cur ws keys : mode3_keys label cur ws = Ok keys ->
  map iv_index keys = seqZ 0 (Z.of_nat (length ws)).
Proof.
  intros H%mapM_res_Forall2.
  assert (Hsnd : map fst (indexed ws) = seqZ 0 (Z.of_nat (length ws))).
  { unfold indexed. apply fst_zip. rewrite seqZ_length. lia. }
  rewrite <- Hsnd. clear Hsnd. induction H as [|[s [w b]] y xs ys Hxy H IH]; [done|]. cbn [map fst]. f_equal; [|done].
  destruct (innerproduct cur w); cbn [mbind res_bind] in Hxy; [|done]. by injection Hxy as <-.
Qed.

Lemma select_mode3_spec N sparsity label cur ws a in_ :
  select_mode3 N sparsity label cur ws = Ok (a, in_) ->
  exists keys rest, mode3_keys label cur ws = Ok keys /\
    Z.of_nat (length ws) + Z.of_nat rest = int_floor (fmul (f_of_Z N) sparsity) /\
    a = map pair0 (map iv_index (sort_pairs keys) ++ replicate rest 0).
Proof.
  unfold select_mode3. 
  destruct (make_slice (pair0 0) _) as [act|] eqn:E1; cbn [mbind res_bind]; [|done].
  apply make_slice_inv in E1 as [Hn ->]. set (n := int_floor _) in *.
  fold (mode3_keys label cur ws). 
  destruct (mode3_keys label cur ws) as [keys|] eqn:EK; cbn [mbind res_bind]; [|done].
  intros E3. set (sk := sort_pairs keys) in *.
  assert (Hlk : length sk = length ws).
  { unfold sk. rewrite sort_pairs_perm. apply mode3_keys_index in EK. apply (f_equal length) in EK.
    rewrite map_length, seqZ_length in EK. lia. }
  assert (m2_active (Z.to_nat n) (map iv_index sk) a) as [HA HB].
  { eapply (foldM_Ok_prefix (fun pre '(act, _) => forall ys, pre = indexed ys -> m2_active (Z.to_nat n) (map iv_index ys) act)) in E3;
      [by apply E3| |].
    - intros [|y ys] Hys; [|apply (f_equal length) in Hys; rewrite indexed_length in Hys; cbn in Hys; lia].
      split; [|cbn; lia]. cbn [map app length]. rewrite Nat.sub_0_r. symmetry. apply fmap_replicate.
    - intros pre [i x] [act i0] [act' i1] HI Hp.
      destruct (prefix_indexed _ _ _ _ Hp) as (-> & ys & -> & _).
      destruct (sset act _ _) as [a1|] eqn:Ea; cbn [mbind res_bind]; [|done]. intros [= <- _].
      intros zs Hzs. specialize (HI ys eq_refl).
      assert (zs = ys ++ [x]) as ->.
      { rewrite indexed_length in Hzs. rewrite <- indexed_snoc in Hzs.
        assert (forall (A : Type) (l : list A), map snd (indexed l) = l) as Hsnd.
        { intros A l. unfold indexed. apply snd_zip. rewrite seqZ_length. lia. }
        apply (f_equal (map snd)) in Hzs. by rewrite !Hsnd in Hzs. }
      rewrite indexed_length in Ea. rewrite <- (map_length iv_index ys) in Ea.
      rewrite map_app. by eapply m2_put. }
  exists keys, (Z.to_nat n - length ws)%nat. split; [done|]. rewrite map_length, Hlk in *. split; [lia|done].
Qed.
