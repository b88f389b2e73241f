(** Prediction in a dense network is a function of its parameters. *)
From Verif.Spec Require Export DenseSpec.
From Verif.Spec Require HashSpec.
From Verif.Proofs Require Export NetInfer.
From Coq Require Import Lia ZifyBool ZifyNat.
Local Open Scope Z_scope.

Lemma weighted_sum_dot w cur s : weighted_sum w cur = Ok s -> s = dot w cur.
Proof.
  unfold weighted_sum, dot.
  assert (G : forall x, foldM (fun s p => x ← sget w (iv_index p); Ok (fadd s (fmul x (iv_value p)))) x cur = Ok s ->
    s = fold_left (fun s p => fadd s (fmul (default fzero (w !! Z.to_nat (iv_index p))) (iv_value p))) cur x); [|apply G].
  induction cur as [|p cur IH]; intros x; cbn [foldM fold_left].
  - by intros [= <-].
  - destruct (sget w (iv_index p)) as [y|] eqn:E1; [|done]. apply sget_Ok in E1 as [_ E1]. rewrite E1. apply IH.
Qed.
Lemma activation_value v cur a : activation v cur a -> a = node_value cur (v_type v, v_w v, v_bias v).
Proof. intros (s & Hs & Ha). apply weighted_sum_dot in Hs as ->. unfold node_value. by destruct (v_type v). Qed.

Lemma dense_output E lv cur out :
  layer_output E lv cur (seqZ 0 (Z.of_nat (length (lv_nodes lv)))) out ->
  out = dense_layer (e_exp E) (lv_type lv, map (fun v => (v_type v, v_w v, v_bias v)) (lv_nodes lv)) cur.
Proof.
  intros (acts & HA & HO). unfold dense_layer. cbn [fst snd]. rewrite map_length.
  assert (Hacts : acts = map (node_value cur) (map (fun v => (v_type v, v_w v, v_bias v)) (lv_nodes lv))).
  { apply list_eq. intros k. rewrite map_map, list_lookup_fmap. destruct (acts !! k) as [a|] eqn:Ek.
    - destruct (Forall2_lookup_r _ _ _ _ _ HA Ek) as (id & Hid & _ & v & Hv & Hact). apply lookup_seqZ in Hid as [-> _].
      replace (Z.to_nat (0 + Z.of_nat k)) with k in Hv by lia. rewrite Hv. cbn. f_equal. by apply activation_value.
    - apply lookup_ge_None in Ek. pose proof (Forall2_length _ _ _ HA) as HL. rewrite seqZ_length in HL.
      rewrite (proj2 (lookup_ge_None (lv_nodes lv) k)) by lia. done. }
  rewrite <- Hacts. destruct (is_softmax (lv_type lv)).
  - destruct HO as (mx & HG & ->). f_equal. unfold exps. by rewrite (greatest_unique _ _ _ HG (fmax_greatest acts)).
  - done.
Qed.

Lemma best_fold out : forall vals k p, HashSpec.sticky_max (map iv_value vals) k -> vals !! k = Some p ->
  exists k', HashSpec.sticky_max (map iv_value (vals ++ out)) k' /\
    (vals ++ out) !! k' = Some (fold_left (fun best q => if fltb (iv_value best) (iv_value q) then q else best) out p).
Proof.
  induction out as [|x out IH]; intros vals k p Hs Hp; cbn [fold_left].
  - exists k. by rewrite app_nil_r.
  - rewrite cons_middle, (assoc_L (++)).
    assert (Hv : map iv_value vals !! k = Some (iv_value p)) by (by rewrite list_lookup_fmap, Hp).
    pose proof (sticky_snoc _ _ _ (iv_value x) Hs Hv) as Hs'. rewrite map_length in Hs'.
    eapply IH; [rewrite map_app; exact Hs'|]. destruct (fltb _ _); [by apply list_lookup_middle|by apply lookup_app_l_Some].
Qed.
Lemma predicted_best out c : predicted out c ->
  c = match out with [] => 0 | p :: out => iv_index (fold_left (fun best q => if fltb (iv_value best) (iv_value q) then q else best) out p) end.
Proof.
  intros [[-> ->]|(k & p & Hs & Hp & <-)]; [done|]. destruct out as [|q out]; [done|].
  destruct (best_fold out [q] 0 q (sticky_one _) eq_refl) as (k' & Hs' & Hp').
  change ([q] ++ out) with (q :: out) in Hs', Hp'. rewrite (sticky_unique _ _ _ Hs Hs') in Hp. by rewrite Hp in Hp'; injection Hp' as ->.
Qed.

Lemma dense_outs E lvs sps off label feats outs :
  (forall j, (j < length lvs)%nat -> exists sp, sps !! (off + j)%nat = Some sp /\ feqb sp fone = true) ->
  inference E lvs sps off label feats outs ->
  forall j, (j <= length lvs)%nat ->
  outs !! j = Some (fold_left (fun cur l => dense_layer (e_exp E) l cur) (parameters_of (take j lvs)) feats).
Proof.
  intros HD (HL & H0 & HI) j. induction j as [|j IH]; intros Hj; [by rewrite H0|].
  destruct (lookup_lt_is_Some_2 lvs j) as [lv Hlv]; [lia|]. destruct (lookup_lt_is_Some_2 outs (S j)) as [out Hout]; [lia|].
  specialize (IH ltac:(lia)). destruct (HI j lv _ out Hlv IH Hout) as (sp & ids & Hsp & HC & HO).
  destruct (HD j) as (sp' & Hsp' & Hf); [lia|]. rewrite Hsp in Hsp'. injection Hsp' as <-.
  unfold chosen in HC. rewrite Hf in HC. subst ids. apply dense_output in HO. rewrite Hout, HO. f_equal.
  rewrite (take_S_r _ _ _ Hlv). unfold parameters_of. rewrite map_app, fold_left_app. done.
Qed.

Lemma dense_predict E m c n nv exs cnt n' m' :
  live E m c n nv -> dense_prediction n -> network_PredictClass E c n exs m = Ok ((cnt, n'), m') ->
  cnt = hits exs (map (fun ex => dense_class (e_exp E) (parameters_of (nv_layers nv)) (features ex)) exs).
Proof.
  intros L HD H. pose proof L as (_ & Hn & _). apply (predict_count _ _ _ _ _ _ _ _ _ L) in H as (cls & -> & _ & HF). f_equal.
  apply list_eq. intros k. rewrite list_lookup_fmap. destruct (cls !! k) as [cl|] eqn:Ek.
  - destruct (Forall2_lookup_r _ _ _ _ _ HF Ek) as (ex & Hex & outs & out & HI & Hl & HP). rewrite Hex. cbn. f_equal.
    apply predicted_best in HP as ->. unfold dense_class.
    assert (Ho : outs !! length (nv_layers nv) = Some (fold_left (fun cur l => dense_layer (e_exp E) l cur) (parameters_of (nv_layers nv)) (features ex))).
    { assert (HD' : forall j, (j < length (nv_layers nv))%nat -> exists sp, nw_sparsity n !! (length (nv_layers nv) + j)%nat = Some sp /\ feqb sp fone = true).
      { intros j Hj. destruct (HD j) as (sp & Hsp & Hf); [lia|]. exists sp. split; [|done]. by replace (Z.to_nat (nw_num n)) with (length (nv_layers nv)) in Hsp by lia. }
      rewrite (dense_outs _ _ _ _ _ _ _ HD' HI (length (nv_layers nv))) by lia. by rewrite firstn_all. }
    destruct HI as (HL & _). rewrite last_lookup, HL in Hl. cbn [Init.Nat.pred] in Hl. rewrite Ho in Hl. by injection Hl as ->.
  - apply lookup_ge_None in Ek. rewrite <- (Forall2_length _ _ _ HF) in Ek. apply lookup_ge_None in Ek. by rewrite Ek.
Qed.

(** The count of a batch is the sum of the counts of its parts. *)
Lemma hits_app (f : Example_ -> Z) xs ys : hits (xs ++ ys) (map f (xs ++ ys)) = hits xs (map f xs) + hits ys (map f ys).
Proof. unfold hits. rewrite map_app, zip_with_app by (by rewrite map_length). rewrite filter_app, app_length. lia. Qed.
Lemma same_parameters I nv nv' : net_same_but I nv nv' -> parameters_of (nv_layers nv') = parameters_of (nv_layers nv).
Proof.
  intros [_ HF]. unfold parameters_of. induction HF as [|lv lv' ls ls' HL HF IH]; [done|]. cbn [map]. rewrite IH. f_equal.
  rewrite (ls_type _ _ _ HL). f_equal. pose proof (ls_nodes _ _ _ HL) as HN. clear -HN.
  induction HN as [|v v' vs vs' HV HN IH]; [done|]. cbn [map]. rewrite IH. f_equal.
  destruct HV as [H1 H2 _ _]. unfold learned in H1. unfold identity in H2. by injection H1 as -> _ _ _ -> _; injection H2 as -> _ _.
Qed.
Lemma predict_batches_hits E c n bs : forall m nv t0 t m', live E m c n nv -> dense_prediction n ->
  mfold (fun total exs => '(k, _) ← network_PredictClass E c n exs; mret (total + k)) t0 bs m = Ok (t, m') ->
  t = t0 + hits (concat bs) (map (fun ex => dense_class (e_exp E) (parameters_of (nv_layers nv)) (features ex)) (concat bs)).
Proof.
  induction bs as [|exs bs IH]; intros m nv t0 t m' L D H.
  - injection H as <- _. unfold hits; cbn; lia.
  - cbn [mfold] in H. apply bindM_inv in H as (t1 & m1 & H1 & H2). apply bindM_inv in H1 as ([k n1] & m1' & HP & H1). injection H1 as <- <-.
    pose proof (dense_predict _ _ _ _ _ _ _ _ _ L D HP) as Hk. apply (predict_unchanged _ _ _ _ _ _ _ _ _ L) in HP as (_ & nv' & L' & NS).
    apply (IH _ _ _ _ _ L' D) in H2 as ->. rewrite (same_parameters _ _ _ NS). cbn [concat]. rewrite hits_app, Hk. lia.
Qed.
Lemma hits_perm (f : Example_ -> Z) xs ys : xs ≡ₚ ys -> hits xs (map f xs) = hits ys (map f ys).
Proof.
  intros H. assert (HZ : forall l, zip l (map f l) = map (fun x => (x, f x)) l) by (induction l as [|x l IH]; [done|]; cbn; by rewrite <- IH).
  unfold hits. rewrite !HZ. f_equal. apply Permutation_length. apply filter_Permutation. by apply fmap_Permutation.
Qed.
Lemma dense_batches E c n bs bs' m nv t m1 m2 n2 c2 nv2 t' m2' :
  live E m c n nv -> dense_prediction n -> live E m2 c2 n2 nv2 -> dense_prediction n2 ->
  parameters_of (nv_layers nv2) = parameters_of (nv_layers nv) -> concat bs ≡ₚ concat bs' ->
  predict_batches E c n bs m = Ok (t, m1) -> predict_batches E c2 n2 bs' m2 = Ok (t', m2') -> t' = t.
Proof.
  intros L D L2 D2 HP HC H H2. apply (predict_batches_hits _ _ _ _ _ _ _ _ _ L D) in H as ->.
  apply (predict_batches_hits _ _ _ _ _ _ _ _ _ L2 D2) in H2 as ->. rewrite HP. f_equal. symmetry. by apply hits_perm.
Qed.
