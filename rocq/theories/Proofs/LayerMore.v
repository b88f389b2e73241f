(** Full density; the tables are not read there; the fallback order. *)
From Verif.Proofs Require Export LayerModes.
From Coq Require Import Lia ZifyBool ZifyNat.
Local Open Scope Z_scope.

Lemma query_dense E c lp anpl li i label sp m in_ anpl' l' m' la ns :
  m_layer m !! lp = Some la -> m_na m !! l_nodes la = Some ns -> feqb sp fone = true ->
  layer_Query E c lp anpl li i label sp m = Ok ((in_, anpl', l'), m') ->
  active_of anpl' li = seqZ 0 (Z.of_nat (length ns)) /\ in_ = 0.
Proof.
  intros Hla Hns Hsp H.
  destruct (query_inv _ _ _ _ _ _ _ _ _ _ _ _ _ _ _ Hla Hns H)
    as (cur0 & sel & m1 & m2 & Hc & HS & Hsel & Hact & _ & HR & _).
  unfold layer_select in Hsel. rewrite Hsp in Hsel. injection Hsel as <- <- <-.
  split; [|done]. rewrite Hact. unfold select_all. apply map_pair0.
Qed.

(** * Computations that do not look at the hash tables *)
Definition blind {A} (c : M A) : Prop := forall f m, c (upd_lsh f m) = with_tables f (c m).

Lemma blind_bind {A B} (c : M A) (k : A -> M B) : blind c -> (forall a, blind (k a)) -> blind (c ≫= k).
Proof.
  intros Hc Hk f m. unfold mbind, M_bind. rewrite Hc. destruct (c m) as [[a m1]|]; [|done]. cbn. apply Hk.
Qed.
Lemma blind_ret {A} (a : A) : blind (mret a). Proof. done. Qed.
Lemma blind_lift {A} (r : res A) : blind (lift r). Proof. intros f m. unfold lift. by destruct r. Qed.
Lemma blind_panic {A} p : blind (mpanic (A := A) p). Proof. done. Qed.
Lemma blind_load {A} (region : mem -> list A) l : (forall f m, region (upd_lsh f m) = region m) -> blind (load region l).
Proof. intros H f m. unfold load. rewrite H. by destruct (region m !! l). Qed.
Lemma blind_store {A} (region : mem -> list A) upd l v : (forall f m, region (upd_lsh f m) = region m) ->
  (forall f g m, upd g (upd_lsh f m) = upd_lsh f (upd g m)) -> blind (store region upd l v).
Proof. intros H H' f m. unfold store. rewrite H. destruct (region m !! l); [|done]. cbn. by rewrite H'. Qed.
Lemma blind_alloc {A} (region : mem -> list A) upd v : (forall f m, region (upd_lsh f m) = region m) ->
  (forall f g m, upd g (upd_lsh f m) = upd_lsh f (upd g m)) -> blind (alloc region upd v).
Proof. intros H H' f m. unfold alloc. rewrite H. cbn. by rewrite H'. Qed.
Lemma blind_mfold {S A} (k : S -> A -> M S) xs : (forall s x, blind (k s x)) -> forall s, blind (mfold k s xs).
Proof. intros Hk. induction xs as [|x xs IH]; intros s; cbn [mfold]; [apply blind_ret|]. by apply blind_bind. Qed.

Ltac blind_step := first
  [ progress intros
  | apply blind_bind | apply blind_ret | apply blind_lift | apply blind_panic | apply blind_load; [done]
  | apply blind_store; [done|done] | apply blind_alloc; [done|done] | apply blind_mfold
  | match goal with
    | |- blind (if ?b then _ else _) => destruct b eqn:?
    | |- blind (match ?x with _ => _ end) => destruct x eqn:?
    end ].

Lemma blind_query E c lp anpl li i label sp : feqb sp fone = true -> blind (layer_Query E c lp anpl li i label sp).
Proof.
  intros Hsp. unfold layer_Query, layer_select. rewrite Hsp.
  unfold layer_cloneIfNeeded, norm_set, norm_get, activate_node, softmax_node.
  unfold_node. repeat blind_step.
  all: unfold norm_get, norm_set; repeat blind_step.
Qed.

(** * The fallback order *)
Lemma update_random_in_order m lp N : in_order m lp N ->
  exists m', layer_UpdateRandomNodes lp m = Ok (tt, m') /\ in_order m' lp N.
Proof.
  intros (la & ns & rn & Hla & Hns & HN & Hrn & HP). unfold layer_UpdateRandomNodes.
  assert (Hl : length rn = length ns) by (rewrite HP, seqZ_length; lia).
  unfold mbind, M_bind, load. rewrite Hla, Hns, Hrn, Hl.
  replace ((1 <? Z.of_nat (length ns)) && (Z.of_nat (length ns) <? Z.of_nat (length ns))) with false by lia.
  unfold with_rng. destruct (fisher_yates (Nat.pred (length ns)) rn (m_rng m)) as [rn' g] eqn:Ef.
  unfold store. cbn. rewrite Hrn. eexists. split; [done|].
  exists la, ns, rn'. cbn. split_and!; [done|done|done|rewrite list_lookup_insert by (by eapply lookup_lt_Some); done|].
  rewrite <- HP. by eapply fisher_yates_Permutation.
Qed.

Lemma update_random_repeat n : forall m lp N, in_order m lp N ->
  exists m', repeatM n (layer_UpdateRandomNodes lp) m = Ok (tt, m') /\ in_order m' lp N.
Proof.
  induction n as [|n IH]; intros m lp N H; cbn [repeatM]; [by exists m|].
  destruct (update_random_in_order _ _ _ H) as (m1 & E1 & H1). destruct (IH _ _ _ H1) as (m2 & E2 & H2).
  exists m2. split; [|done]. unfold mbind, M_bind. by rewrite E1.
Qed.

(** New puts 0..numOfNodes-1 in random order; nothing after that touches the order. *)
Lemma mmap_length {A B} (f : A -> M B) xs : forall m ys m', mmap f xs m = Ok (ys, m') -> length ys = length xs.
Proof.
  induction xs as [|x xs IH]; intros m ys m'; cbn [mmap]; [by intros [= <- _]|].
  intros (y & m1 & _ & H)%bindM_inv. apply bindM_inv in H as (ys' & m2 & H2 & H). injection H as <- _.
  cbn. f_equal. by eapply IH.
Qed.
Lemma pres_new_hashers {X} (π : mem -> X) E h k l prev : (forall g m, π (upd_rng g m) = π m) ->
  (forall g m, π (upd_seeds g m) = π m) -> pres π (new_hashers E h k l prev).
Proof.
  intros H1 H2 m a m'. unfold new_hashers. destruct (make_hashers _ _ _ _ _ _ _) as [[h' g]|]; [|done].
  intros [= <- <-]. by rewrite H2, H1.
Qed.
Lemma pres_normFloat64 {X} (π : mem -> X) : (forall n m, π (upd_npos n m) = π m) -> pres π normFloat64.
Proof. intros H m a m'. unfold normFloat64. intros [= <- <-]. by rewrite H. Qed.

Lemma new_in_order E c N prev lid ty B k l rp sp w b mo ve m lp m' :
  layer_New E c N prev lid ty B k l rp sp w b mo ve m = Ok (lp, m') -> in_order m' lp N.
Proof.
  unfold layer_New. intros H.
  apply bindM_inv in H as (zs & m0 & Hz & H). apply lift_inv in Hz as [Hz ->].
  apply make_slice_inv in Hz as [HN ->].
  apply bindM_inv in H as (rn & m1 & Hr & H).
  assert (rn ≡ₚ seqZ 0 N) as HP.
  { unfold with_rng in Hr. destruct (shuffle _ _) as [r' g] eqn:Es. injection Hr as -> _.
    rewrite (shuffle_Permutation _ _ _ _ Es), replicate_length. by rewrite Z2Nat.id by lia. }
  apply bindM_inv in H as (rl & m2 & Hrl & H). unfold alloc in Hrl. injection Hrl as <- <-.
  apply bindM_inv in H as (t & m3 & Ht & H).
  assert (I3 : m_ia m3 !! length (m_ia m1) = Some rn).
  { unfold with_rng in Ht. destruct (lsh_New _ _ _ _) as [[t' g]|]; [|done]. injection Ht as -> <-. cbn.
    rewrite lookup_app_r by lia. by rewrite Nat.sub_diag. }
  apply bindM_inv in H as (tables & m4' & Htb & H). unfold alloc in Htb. injection Htb as <- <-.
  apply bindM_inv in H as (h & m5 & Hh & H).
  assert (I5 : m_ia m5 = m_ia m3).
  { apply (pres_new_hashers m_ia) in Hh; [|done|done]. rewrite Hh. done. }
  apply bindM_inv in H as ([[[cw cb] cm] cv] & m6 & Hp & H).
  assert (I6 : m_ia m6 = m_ia m5).
  { assert (pres m_ia (init_params E N prev w b mo ve)) as HH; [|by eapply HH].
    unfold init_params, normals, make_f. repeat first [apply pres_normFloat64; done | pres_step]. }
  apply bindM_inv in H as (slots & m7 & Hs & H). apply lift_inv in Hs as [Hs ->].
  apply bindM_inv in H as (trs & m8 & Htr & H).
  assert (I8 : m_ia m8 = m_ia m6).
  { assert (pres m_ia (mmap (fun _ : unit => NewNodeTrain c) slots)) as HH; [unfold NewNodeTrain; pres_tac|by eapply HH]. }
  apply bindM_inv in H as (ta & m9 & Hta & H). unfold alloc in Hta. injection Hta as <- <-.
  apply bindM_inv in H as (ps & m10 & Hps & H). pose proof (mmap_length _ _ _ _ _ Hps) as Lps.
  assert (I10 : m_ia m10 = m_ia m8).
  { assert (pres m_ia (mmap (fun _ : Z => NewEmptyNode c) (replicate (Z.to_nat N) 0))) as HH; [unfold NewEmptyNode; pres_tac|].
    rewrite (HH _ _ _ Hps). done. }
  apply bindM_inv in H as (ns & m11 & Hns & H). pose proof (mmap_length _ _ _ _ _ Hns) as Lns.
  assert (I11 : m_ia m11 = m_ia m10).
  { match type of Hns with mmap ?f ?x _ = _ => assert (pres m_ia (mmap f x)) as HH; [|by eapply HH] end.
    unfold init_node, fslice_sub, node_Update, layer_addToHashTable, make_f, node_Weights, fread, fspare.
    unfold_node. pres_tac. }
  apply bindM_inv in H as (na & m12 & Hna & H). unfold alloc in Hna. injection Hna as <- <-.
  apply bindM_inv in H as (norm & m13 & Hno & H). unfold alloc in H. injection H as <- <-.
  assert (m_ia m13 = m_ia m11 /\ m_na m13 = m_na m11 ++ [ns]) as [I13 N13].
  { destruct (is_softmax ty); [|by injection Hno as _ <-].
    match type of Hno with ?k _ = _ => assert (pres m_ia k /\ pres m_na k) as [H1 H2]; [split; unfold make_f; pres_tac|] end.
    by rewrite (H1 _ _ _ Hno), (H2 _ _ _ Hno). }
  eexists _, ns, rn. cbn. split; [rewrite lookup_app_r by lia; by rewrite Nat.sub_diag|]. cbn.
  split; [rewrite N13, lookup_app_r by lia; by rewrite Nat.sub_diag|].
  split; [rewrite Lns, indexed_length, Lps, replicate_length; lia|].
  split; [congruence|done].
Qed.

Lemma new_update_in_order E c N prev lid ty B k l rp sp w b mo ve m lp m' :
  layer_New E c N prev lid ty B k l rp sp w b mo ve m = Ok (lp, m') ->
  forall n, exists m'', repeatM n (layer_UpdateRandomNodes lp) m' = Ok (tt, m'') /\ in_order m'' lp N.
Proof. intros H n. by eapply update_random_repeat, new_in_order. Qed.
