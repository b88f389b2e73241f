(** Proofs for C75 and C76. *)
From Verif.Model Require Import Network.
From Verif.Spec Require Import NetSpec OrderSpec.
From Verif.Proofs Require Import MemProofs.
From stdpp Require Import gmap.
From Coq Require Import Lia.
Local Open Scope Z_scope.

(** * Ids *)
Lemma clone_same c a b : same_network a b -> network_cloneIfNeeded c a = network_cloneIfNeeded c b.
Proof.
  destruct a, b. unfold same_network, network_cloneIfNeeded. cbn. intros (-> & -> & -> & ->).
  destruct (Z.eqb_spec nw_cowId c), (Z.eqb_spec nw_cowId0 c); subst; done.
Qed.
Lemma predict_same E c a b exs : same_network a b -> network_PredictClass E c a exs = network_PredictClass E c b exs.
Proof. intros H. unfold network_PredictClass. by rewrite (clone_same c a b H). Qed.
Lemma train_same E c a b exs iter rehash rebuild : same_network a b ->
  network_ProcessInput E c a exs iter rehash rebuild = network_ProcessInput E c b exs iter rehash rebuild.
Proof. intros H. unfold network_ProcessInput. by rewrite (clone_same c a b H). Qed.
Lemma clone_is c n : same_network n (network_cloneIfNeeded c n) /\ nw_cowId (network_cloneIfNeeded c n) = c.
Proof. unfold network_cloneIfNeeded, same_network. destruct (Z.eqb_spec (nw_cowId n) c); done. Qed.

(** * The order of the labels *)
Lemma bind_ext {A B} (c c' : M A) (f f' : A -> M B) m :
  (forall m, c m = c' m) -> (forall a m, f a m = f' a m) -> (c ≫= f) m = (c' ≫= f') m.
Proof. intros Hc Hf. unfold mbind, M_bind. rewrite Hc. by destruct (c' m) as [[a m']|]. Qed.
Lemma bind_lift_ext {A B} (r : res A) (f f' : A -> M B) m :
  (forall a, r = Ok a -> f a m = f' a m) -> (lift r ≫= f) m = (lift r ≫= f') m.
Proof. intros H. unfold mbind, M_bind, lift. destruct r; [by apply H|done]. Qed.
Lemma mfold_ext {S A} (f g : S -> A -> M S) xs : (forall s x m, x ∈ xs -> f s x m = g s x m) -> forall s m, mfold f s xs m = mfold g s xs m.
Proof.
  induction xs as [|x xs IH]; intros H s m; [done|]. cbn [mfold]. apply bind_ext; [intros; apply H; by left|].
  intros a m'. apply IH. intros. apply H. by right.
Qed.
Lemma mmap2_ext {A B} (f g : A -> M B) xs ys : Forall2 (fun x y => forall m, f x m = g y m) xs ys -> forall m, mmap f xs m = mmap g ys m.
Proof.
  induction 1 as [|x y xs ys Hxy _ IH]; intros m; [done|]. cbn [mmap]. apply bind_ext; [done|]. intros a m1.
  apply bind_ext; [done|]. done.
Qed.
Lemma contains_perm l l' x : l ≡ₚ l' -> intSliceContains l x = intSliceContains l' x.
Proof.
  intros H. induction H as [|a l l' _ IH|a b l|l1 l2 l3 _ IH1 _ IH2].
  - done.
  - unfold intSliceContains in *. cbn. by rewrite IH.
  - unfold intSliceContains. cbn. destruct (_ =? _), (_ =? _); done.
  - by rewrite IH1.
Qed.
Lemma count_label_perm L l l' : l ≡ₚ l' -> forall c, foldl (count_label L) c l = foldl (count_label L) c l'.
Proof.
  induction 1 as [|a l l' _ IH|a b l|l1 l2 l3 _ IH1 _ IH2]; intros c; cbn [foldl].
  - done.
  - apply IH.
  - f_equal. unfold count_label. destruct (decide (a = b)) as [->|Hn]; [done|]. by rewrite insert_commute.
  - by rewrite IH1.
Qed.
Lemma sset_len {A} (xs ys : list A) i v : sset xs i v = Ok ys -> length ys = length xs.
Proof. unfold sset. destruct (i <? 0); [done|]. destruct (decide _); [|done]. intros [= <-]. by rewrite insert_length. Qed.
Lemma sset_perm (L : Z) l l' : l ≡ₚ l' -> forall c : list Z,
  foldM (fun counts labelValue => sset counts labelValue L) c l = foldM (fun counts labelValue => sset counts labelValue L) c l'.
Proof.
  induction 1 as [|a l l' _ IH|a b l|l1 l2 l3 _ IH1 _ IH2]; intros c; cbn [foldM].
  - done.
  - destruct (sset c a L); [apply IH|done].
  - unfold sset, mbind, res_bind.
    destruct (Z.ltb_spec a 0), (Z.ltb_spec b 0); try done;
      destruct (decide (Z.to_nat a < length c)%nat), (decide (Z.to_nat b < length c)%nat); rewrite ?insert_length;
      repeat (rewrite ?decide_True by done; rewrite ?decide_False by done); try done.
    f_equal. destruct (decide (a = b)) as [->|Hn]; [done|]. apply list_insert_commute. lia.
  - by rewrite IH1.
Qed.
Lemma foldM_ext_all {S A} (f g : S -> A -> res S) xs : (forall s x, f s x = g s x) -> forall s, foldM f s xs = foldM g s xs.
Proof. intros H. induction xs as [|x xs IH]; intros s; [done|]. cbn [foldM]. rewrite H. destruct (g s x); [apply IH|done]. Qed.
Lemma mapM_ext_all {A B} (f g : A -> res B) xs : (forall x, f x = g x) -> mapM_res f xs = mapM_res g xs.
Proof. intros H. induction xs as [|x xs IH]; [done|]. cbn. by rewrite H, IH. Qed.
Lemma mode1_perm sm L l l' actives g : l ≡ₚ l' -> select_mode1 sm L l actives g = select_mode1 sm L l' actives g.
Proof. intros H. unfold select_mode1. by rewrite (count_label_perm L l l' H), (Permutation_length H). Qed.
Lemma mode3_perm N sp l l' cur ws : l ≡ₚ l' -> select_mode3 N sp l cur ws = select_mode3 N sp l' cur ws.
Proof.
  intros H. unfold select_mode3, mbind, res_bind. destruct (make_slice _ _) as [active|]; [|done].
  match goal with |- match mapM_res ?f _ with _ => _ end = match mapM_res ?g _ with _ => _ end =>
    assert (mapM_res f (indexed ws) = mapM_res g (indexed ws)) as -> by
      (apply mapM_ext_all; intros [s [w b]]; by rewrite (contains_perm l l' s H)) end.
  destruct (mapM_res _ _); [|done]. apply foldM_ext_all. intros [a1 i1] [k1 sw]. by rewrite (contains_perm l l' _ H).
Qed.
Lemma mode4_perm N sm L rand l l' actives g : l ≡ₚ l' -> select_mode4 N sm L rand l actives g = select_mode4 N sm L rand l' actives g.
Proof. intros H. unfold select_mode4. by rewrite (sset_perm L l l' H), (Permutation_length H). Qed.
Lemma select_perm E la ns cur l l' sp m : l ≡ₚ l' -> e_Mode E <> LayerMode2 \/ feqb sp fone = true ->
  layer_select E la ns cur l sp m = layer_select E la ns cur l' sp m.
Proof.
  intros H Hm. unfold layer_select. destruct (feqb sp fone); [done|]. destruct Hm as [Hm|]; [|done].
  destruct (e_Mode E); try done.
  - apply bind_ext; [done|]. intros t m1. apply bind_ext; [done|]. intros a m2. apply bind_ext; [|done].
    intros m3. unfold with_rng. by rewrite (mode1_perm _ _ _ _ _ _ H).
  - destruct (is_softmax _); [|done]. apply bind_ext; [done|]. intros ws m1. by rewrite (mode3_perm _ _ _ _ _ _ H).
  - apply bind_ext; [done|]. intros t m1. apply bind_ext; [done|]. intros a m2. apply bind_ext; [done|]. intros r m3.
    apply bind_ext; [|done]. intros m4. unfold with_rng. by rewrite (mode4_perm _ _ _ _ _ _ _ _ H).
Qed.
Lemma query_perm E c lp anpl li i l l' sp m : l ≡ₚ l' -> e_Mode E <> LayerMode2 \/ feqb sp fone = true ->
  layer_Query E c lp anpl li i l sp m = layer_Query E c lp anpl li i l' sp m.
Proof.
  intros H Hm. unfold layer_Query. do 4 (apply bind_ext; [done|]; intros ? ?).
  apply bind_ext; [intros; by apply select_perm|]. done.
Qed.
Lemma forward_perm E c n i f l l' off m : l ≡ₚ l' -> e_Mode E <> LayerMode2 \/ fully_dense n ->
  forward E c n i f l off m = forward E c n i f l' off m.
Proof.
  intros H Hm. unfold forward. do 3 (apply bind_ext; [done|]; intros ? ?).
  apply mfold_ext. intros [anpl ins] li mm _. unfold forward_layer. do 2 (apply bind_ext; [done|]; intros ? ?).
  apply bind_lift_ext. intros sp Es.
  assert (e_Mode E <> LayerMode2 \/ feqb sp fone = true) as Hs.
  { destruct Hm as [Hm|Hm]; [by left|right]. unfold fully_dense in Hm. rewrite Forall_forall in Hm. apply Hm.
    unfold sget in Es. destruct (_ <? _); [done|]. destruct (_ !! _) eqn:Eq; [|done]. injection Es as ->. by eapply elem_of_list_lookup_2. }
  apply bind_ext; [|done]. intros mm2. by apply query_perm.
Qed.
Lemma extra_perm c nd norm i l l' m : l ≡ₚ l' ->
  node_ComputeExtaStatsForSoftMax c nd norm i l m = node_ComputeExtaStatsForSoftMax c nd norm i l' m.
Proof.
  intros H. unfold node_ComputeExtaStatsForSoftMax. apply bind_ext; [done|]. intros t0 m0. destruct (inactive t0); [done|].
  do 4 (apply bind_ext; [done|]; intros ? ?). by rewrite (contains_perm l l' _ H), (Permutation_length H).
Qed.
Lemma backward_perm E c n i ex ex' lr anpl li m : same_example ex ex' ->
  backward_layer E c n i ex lr anpl li m = backward_layer E c n i ex' lr anpl li m.
Proof.
  intros [Hf H]. unfold backward_layer. do 4 (apply bind_ext; [done|]; intros ? ?).
  unfold miter. apply mfold_ext. intros _ p mm1 _. unfold backward_node. apply bind_ext; [done|]. intros nd mm2.
  apply bind_ext.
  - intros mm3. destruct (_ =? _); [|done]. apply bind_ext; [done|]. intros norm m4. apply bind_ext; [|done].
    intros m5. by apply extra_perm.
  - intros _ mm3. by rewrite Hf.
Qed.
Lemma train_one_perm E c n lr i ex ex' m : same_example ex ex' -> e_Mode E <> LayerMode2 \/ fully_dense n ->
  train_one E c n lr (i, ex) m = train_one E c n lr (i, ex') m.
Proof.
  intros Hx Hm. unfold train_one. apply bind_ext.
  - intros m1. destruct Hx as [-> Hl]. by apply forward_perm.
  - intros [anpl ins] m1. apply bind_ext; [|done]. intros m2. unfold miter. apply mfold_ext. intros. by apply backward_perm.
Qed.
Lemma indexed_Forall2 {A B} (P : A -> B -> Prop) xs ys : Forall2 P xs ys ->
  Forall2 (fun x y => x.1 = y.1 /\ P x.2 y.2) (indexed xs) (indexed ys).
Proof.
  intros H. unfold indexed. rewrite (Forall2_length _ _ _ H). generalize 0. induction H as [|x y xs ys Hxy _ IH]; intros z.
  - cbn. constructor.
  - cbn [length]. rewrite Nat2Z.inj_succ, seqZ_cons by lia. cbn [zip zip_with]. constructor; [done|].
    rewrite Z.pred_succ. apply IH.
Qed.
Lemma fully_dense_clone c n : fully_dense n -> fully_dense (network_cloneIfNeeded c n).
Proof. unfold network_cloneIfNeeded. by destruct (_ =? _). Qed.
Lemma train_perm E c n exs exs' iter rehash rebuild m :
  Forall2 same_example exs exs' -> e_Mode E <> LayerMode2 \/ fully_dense n ->
  network_ProcessInput E c n exs iter rehash rebuild m = network_ProcessInput E c n exs' iter rehash rebuild m.
Proof.
  intros Hx Hm. unfold network_ProcessInput.
  assert (e_Mode E <> LayerMode2 \/ fully_dense (network_cloneIfNeeded c n)) as Hm'.
  { destruct Hm; [by left|right]. by apply fully_dense_clone. }
  generalize dependent (network_cloneIfNeeded c n). intros n' Hm'. clear Hm n.
  do 2 (apply bind_ext; [done|]; intros ? ?). apply bind_ext; [|done].
  intros mm1. apply mmap2_ext. eapply Forall2_impl; [by apply indexed_Forall2|]. intros [i ma] [j b] [E1 Hab] m2. cbn in E1. subst j.
  by apply train_one_perm.
Qed.
Lemma predict_perm E c n exs exs' m : Forall2 same_example exs exs' ->
  network_PredictClass E c n exs m = network_PredictClass E c n exs' m.
Proof.
  intros Hx. unfold network_PredictClass. do 2 (apply bind_ext; [done|]; intros ? ?). apply bind_ext; [|done].
  clear m. intros m. revert m. generalize 0 as cnt.
  apply indexed_Forall2 in Hx. induction Hx as [|[i ma] [j b] xs ys [E1 [Hf Hl]] _ IH]; intros cnt m; [done|]. cbn in E1, Hf, Hl. subst j.
  cbn [mfold]. apply bind_ext; [|intros; apply IH]. intros mm1. unfold predict_one. rewrite Hf.
  apply bind_ext; [done|]. intros p m2. by rewrite (contains_perm _ _ _ Hl).
Qed.

Lemma alias E c a b : same_network a b ->
  (forall exs m, network_PredictClass E c a exs m = network_PredictClass E c b exs m) /\
  (forall exs iter rehash rebuild m,
     network_ProcessInput E c a exs iter rehash rebuild m = network_ProcessInput E c b exs iter rehash rebuild m).
Proof.
  intros S0. split; intros; [rewrite (predict_same E c a b exs S0)|rewrite (train_same E c a b exs iter rehash rebuild S0)]; reflexivity.
Qed.
Lemma alias_calls E c a b os m : same_network a b -> os <> [] -> call_ops E c a os m = call_ops E c b os m.
Proof.
  intros S0 H. destruct os as [|o os]; [done|]. unfold call_ops. cbn [mfold].
  assert (X : call_op E c a o = call_op E c b o).
  { destruct o; cbn [call_op]; [rewrite (train_same _ _ _ _ _ _ _ _ S0)|rewrite (predict_same _ _ _ _ _ S0)]; reflexivity. }
  rewrite X. reflexivity.
Qed.
Lemma result_is E c n exs iter rehash rebuild m :
  (forall cnt n' m', network_PredictClass E c n exs m = Ok ((cnt, n'), m') -> same_network n n' /\ nw_cowId n' = c) /\
  (forall ins n' m', network_ProcessInput E c n exs iter rehash rebuild m = Ok ((ins, n'), m') ->
     same_network n n' /\ nw_cowId n' = c).
Proof.
  pose proof (clone_is c n) as C.
  split; intros x n' m' H.
  - unfold network_PredictClass in H. apply bindM_inv in H as (ls & m1 & _ & H). apply bindM_inv in H as (lh & m2 & _ & H).
    apply bindM_inv in H as (cp & m3 & _ & H). cbv [mret M_ret] in H. injection H as _ <- _. exact C.
  - unfold network_ProcessInput in H. do 5 (apply bindM_inv in H as (? & ? & _ & H)).
    cbv [mret M_ret] in H. injection H as _ <- _. exact C.
Qed.
