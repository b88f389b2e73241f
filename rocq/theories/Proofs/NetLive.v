(** Networks stay well-formed; prediction changes only activations. *)
From Verif.Spec Require Export LearnSpec.
From Verif.Proofs Require Export NetNew.
From Coq Require Import Lia ZifyBool ZifyNat.

Lemma live_process E m c n nv exs iter rehash rebuild : live E m c n nv ->
  refines (network_ProcessInput E c n exs iter rehash rebuild m)
    (ref_process E (nw_num n) (nw_sparsity n) (nw_lr n) nv exs iter rehash rebuild)
    (fun b a m' => a = (b.1, n) /\ live E m' c n b.2).
Proof.
  intros (Hc & Hn & lls & R & O & S). eapply refines_impl; [by eapply process_ref|]. cbn beta.
  intros [ins nv'] a m' [-> R']. split; [done|]. split; [done|]. split; [|by exists lls].
  cbn. rewrite Hn, <- (nr_len _ _ _ _ _ R), (nr_len _ _ _ _ _ R'). done.
Qed.
Lemma live_predict E m c n nv exs : live E m c n nv ->
  refines (network_PredictClass E c n exs m) (ref_predict E (nw_num n) (nw_sparsity n) nv exs)
    (fun b a m' => a = (b.1, n) /\ live E m' c n b.2).
Proof.
  intros (Hc & Hn & lls & R & O & S). eapply refines_impl; [by eapply predict_ref|]. cbn beta.
  intros [ins nv'] a m' [-> R']. split; [done|]. split; [done|]. split; [|by exists lls].
  cbn. rewrite Hn, <- (nr_len _ _ _ _ _ R), (nr_len _ _ _ _ _ R'). done.
Qed.

(** The reference effect of a call. *)
Definition ref_call (E : env) (n : Network) (nv : NetView) (o : net_op) : res NetView :=
  match o with
  | OpTrain exs iter rehash rebuild =>
      '(_, nv) ← ref_process E (nw_num n) (nw_sparsity n) (nw_lr n) nv exs iter rehash rebuild; Ok nv
  | OpPredict exs => '(_, nv) ← ref_predict E (nw_num n) (nw_sparsity n) nv exs; Ok nv
  end.
Lemma live_call E m c n nv o : live E m c n nv ->
  refines (call_op E c n o m) (ref_call E n nv o) (fun nv' n' m' => n' = n /\ live E m' c n nv').
Proof.
  intros L. destruct o as [exs iter rehash rebuild|exs]; cbn [call_op ref_call].
  - eapply refines_bind; [by apply live_process|]. intros [ins nv'] [? ?] m' [[= -> ->] L']. by apply refines_ret.
  - eapply refines_bind; [by apply live_predict|]. intros [ins nv'] [? ?] m' [[= -> ->] L']. by apply refines_ret.
Qed.
Lemma live_calls E c n os : forall m nv, live E m c n nv ->
  refines (call_ops E c n os m) (foldM (ref_call E n) nv os) (fun nv' n' m' => n' = n /\ live E m' c n nv').
Proof.
  intros m nv L. unfold call_ops.
  eapply (refines_fold (call_op E c) (ref_call E n) (fun nv' n' m' => n' = n /\ live E m' c n nv')); [|done].
  intros nv1 a m1 x _ [-> L1]. by apply live_call.
Qed.

Lemma refines_Ok {A B} (o : res (A * mem)) (r : res B) Q a m' : refines o r Q -> o = Ok (a, m') ->
  exists b, r = Ok b /\ Q b a m'.
Proof. destruct r as [b|]; cbn; [intros (a1 & m1 & -> & HQ) [= -> ->]; eauto|by intros ->]. Qed.

(** * What a query leaves alone *)
Lemma same_refl I v : same_but I v v.
Proof. by constructor. Qed.
Lemma same_trans (I : Z -> Prop) v1 v2 v3 : same_but I v1 v2 -> same_but I v2 v3 -> same_but I v1 v3.
Proof. intros [? ? ? H4] [? ? ? H5]. constructor; [congruence..|]. intros k Hk. rewrite H5, H4 by done. done. Qed.
Lemma same_weaken (I J : Z -> Prop) v v' : (forall k, I k -> J k) -> same_but I v v' -> same_but J v v'.
Proof. intros H []. constructor; try done. intros. naive_solver. Qed.
Lemma same_set (I : Z -> Prop) v i s : I i -> 0 <= i -> same_but I v (v_set_slot v i s).
Proof.
  intros Hi H0. constructor; try done; cbn.
  - by rewrite insert_length.
  - intros k Hk. apply list_lookup_insert_ne. intros <-. rewrite Z2Nat.id in Hk by done. done.
Qed.
Lemma Forall2_refl' {A} (R : A -> A -> Prop) l : (forall x, R x x) -> Forall2 R l l.
Proof. intros HR. induction l; by constructor. Qed.
Lemma Forall2_upd {A} (R : A -> A -> Prop) l l' i x y : (forall x y z, R x y -> R y z -> R x z) ->
  Forall2 R l l' -> l' !! i = Some x -> R x y -> Forall2 R l (<[i := y]> l').
Proof.
  intros HT HF. revert i. induction HF as [|a b l l' Hab HF IH]; intros i; [done|].
  destruct i as [|i]; cbn; intros Hi Hxy.
  - injection Hi as ->. constructor; [by eapply HT|done].
  - constructor; [done|]. by apply IH.
Qed.
Lemma layer_same_refl I lv : layer_same_but I lv lv.
Proof. constructor; try done. apply Forall2_refl', same_refl. Qed.
Lemma layer_same_trans I l1 l2 l3 : layer_same_but I l1 l2 -> layer_same_but I l2 l3 -> layer_same_but I l1 l3.
Proof.
  intros [?? ? ? ? ? ? ? H1 H2] [???? ? ? ? ? H3 H4]. constructor; try congruence.
  - intros k Hk. rewrite H3, H1 by done. done.
  - eapply Forall2_transitive; [|done..]. apply same_trans.
Qed.
Lemma net_same_refl I nv : net_same_but I nv nv.
Proof. constructor; [done|]. apply Forall2_refl', layer_same_refl. Qed.
Lemma net_same_trans I l1 l2 l3 : net_same_but I l1 l2 -> net_same_but I l2 l3 -> net_same_but I l1 l3.
Proof.
  intros [] []. constructor; try congruence. eapply Forall2_transitive; [|done..]. apply layer_same_trans.
Qed.
Lemma layer_same_weaken (I J : Z -> Prop) v v' : (forall k, I k -> J k) -> layer_same_but I v v' -> layer_same_but J v v'.
Proof.
  intros H []. constructor; try done; [naive_solver|]. eapply Forall2_impl; [done|]. intros. by eapply same_weaken.
Qed.
Lemma net_same_weaken (I J : Z -> Prop) v v' : (forall k, I k -> J k) -> net_same_but I v v' -> net_same_but J v v'.
Proof. intros H []. constructor; try done. eapply Forall2_impl; [done|]. intros. by eapply layer_same_weaken. Qed.

Lemma activate_same v cur i a v' : ref_activate v cur i = Ok (a, v') -> same_but (eq i) v v'.
Proof.
  unfold ref_activate. destruct (_ <? _); [done|]. intros H. bind_inv H. apply sget_Ok in E as [Hi _].
  destruct (v_type v); [destruct (fltb _ _)|..]; try done; injection H as <- <-; by apply same_set.
Qed.
Lemma set_act_same v i a v' : ref_set_act v i a = Ok v' -> same_but (eq i) v v'.
Proof. unfold ref_set_act. intros H. bind_inv H. injection H as <-. apply sget_Ok in E as [Hi _]. by apply same_set. Qed.

Lemma act_step_inv sm cur i vs pre mx p vs1 pre1 mx1 :
  ref_act_step sm cur i (vs, (pre, mx)) p = Ok (vs1, (pre1, mx1)) ->
  exists v a v', 0 <= iv_index p /\ vs !! Z.to_nat (iv_index p) = Some v /\ ref_activate v cur i = Ok (a, v') /\
    vs1 = <[Z.to_nat (iv_index p) := v']> vs /\ pre1 = pre ++ [mkPair (iv_index p) a] /\
    mx1 = (if sm && fltb mx a then a else mx).
Proof.
  unfold ref_act_step. intros H. bind_inv H. destruct a0 as [b v']. injection H as <- <- <-.
  apply sget_Ok in E as [? ?]. eauto 10.
Qed.
Lemma soft_step_inv E i mx vs norm pre p vs1 norm1 pre1 :
  ref_soft_step E i mx (vs, norm, pre) p = Ok (vs1, norm1, pre1) ->
  exists v v' x, 0 <= iv_index p /\ vs !! Z.to_nat (iv_index p) = Some v /\
    ref_set_act v i (e_exp E (fsub (iv_value p) mx)) = Ok v' /\ 0 <= i /\ norm !! Z.to_nat i = Some x /\
    vs1 = <[Z.to_nat (iv_index p) := v']> vs /\ norm1 = <[Z.to_nat i := fadd x (e_exp E (fsub (iv_value p) mx))]> norm /\
    pre1 = pre ++ [mkPair (iv_index p) (e_exp E (fsub (iv_value p) mx))].
Proof.
  unfold ref_soft_step. cbn zeta. intros H. bind_inv H. injection H as <- <- <-.
  apply sget_Ok in E0 as [? ?]. apply sget_Ok in E2 as [? ?]. apply sset_Ok in E3 as [? ->]. eauto 12.
Qed.
Lemma act_loop_same sm cur i next : forall vs pre mx vs' out mx',
  foldM (ref_act_step sm cur i) (vs, (pre, mx)) next = Ok (vs', (out, mx')) -> Forall2 (same_but (eq i)) vs vs'.
Proof.
  induction next as [|p next IH]; intros vs pre mx vs' out mx'; cbn [foldM].
  - intros [= <- _ _]. apply Forall2_refl', same_refl.
  - destruct (ref_act_step _ _ _ _ _) as [[vs1 [pre1 mx1]]|] eqn:E1; [|done]. intros H.
    apply act_step_inv in E1 as (v & a & v' & _ & Ev & Ea & -> & _).
    apply IH in H. eapply Forall2_transitive; [apply same_trans| |exact H].
    eapply Forall2_upd; [apply same_trans|apply Forall2_refl', same_refl|exact Ev|].
    by eapply activate_same.
Qed.
Lemma soft_loop_same E i mx next : forall vs norm pre vs' norm' out,
  foldM (ref_soft_step E i mx) (vs, norm, pre) next = Ok (vs', norm', out) ->
  Forall2 (same_but (eq i)) vs vs' /\ length norm' = length norm /\ (forall k, i <> Z.of_nat k -> norm' !! k = norm !! k).
Proof.
  induction next as [|p next IH]; intros vs norm pre vs' norm' out; cbn [foldM].
  - intros [= <- <- _]. split; [apply Forall2_refl', same_refl|done].
  - destruct (ref_soft_step _ _ _ _ _) as [[[vs1 norm1] pre1]|] eqn:E1; [|done]. intros H.
    apply soft_step_inv in E1 as (v & v' & x & _ & Ev & Ea & Hi & Hx & -> & -> & _).
    apply IH in H as (HF & HL & HN).
    split; [|split].
    + eapply Forall2_transitive; [apply same_trans| |exact HF].
      eapply Forall2_upd; [apply same_trans|apply Forall2_refl', same_refl|exact Ev|]. by eapply set_act_same.
    + by rewrite HL, insert_length.
    + intros k Hk. rewrite HN by done. apply list_lookup_insert_ne. lia.
Qed.

(** Inverting one bind. *)
Tactic Notation "binv" hyp(H) "as" simple_intropattern(x) ident(E) :=
  match type of H with
  | (?c ≫= _) = Ok _ => destruct c as [x|] eqn:E; cbn [mbind res_bind] in H; [|discriminate H]
  end.
Lemma query_inv E lv anpl li i label sp g in_ anpl' lv' g' :
  ref_query E lv anpl li i label sp g = Ok (in_, anpl', lv', g') ->
  exists cur sel anpl1 next norm1 vs1 next1 mx vs2 norm2 next2,
    sget anpl li = Ok cur /\ ref_select E lv cur label sp g = Ok (sel, in_, g') /\
    anpl1 = (match sel with Some a => <[Z.to_nat (li + 1) := a]> anpl | None => anpl end) /\
    sget anpl1 (li + 1) = Ok next /\
    (if is_softmax (lv_type lv) then sset (lv_norm lv) i fzero else Ok (lv_norm lv)) = Ok norm1 /\
    foldM (ref_act_step (is_softmax (lv_type lv)) cur i) (lv_nodes lv, ([], fzero)) next = Ok (vs1, (next1, mx)) /\
    (if is_softmax (lv_type lv) then foldM (ref_soft_step E i mx) (vs1, norm1, []) next1
                       else Ok (vs1, norm1, next1)) = Ok (vs2, norm2, next2) /\
    anpl' = <[Z.to_nat (li + 1) := next2]> anpl1 /\ lv' = lv_set_norm (lv_set_nodes lv vs2) norm2.
Proof.
  unfold ref_query. intros H. binv H as cur E1. binv H as [[sel in0] g0] E2. binv H as anpl1 E3. binv H as next E4.
  binv H as norm1 E5. binv H as [vs1 [next1 mx]] E6. binv H as [[vs2 norm2] next2] E7. binv H as anpl2 E8.
  injection H as <- <- <- <-. apply sset_Ok in E8 as [_ ->].
  exists cur, sel, anpl1, next, norm1, vs1, next1, mx, vs2, norm2, next2. split_and!; try done.
  destruct sel; [by apply sset_Ok in E3 as [_ ->]|by injection E3].
Qed.
Lemma query_same E lv anpl li i label sp g in_ anpl' lv' g' :
  ref_query E lv anpl li i label sp g = Ok (in_, anpl', lv', g') ->
  layer_same_but (eq i) lv lv' /\ length anpl' = length anpl.
Proof.
  intros H. apply query_inv in H as (cur & sel & anpl1 & next & norm1 & vs1 & next1 & mx & vs2 & norm2 & next2 & E1 & E2 & E3 & E4 & E5 & E6 & E7 & E8 & ->).
  apply act_loop_same in E6. rewrite E8, insert_length.
  assert (HL : length anpl1 = length anpl).
  { rewrite E3. destruct sel; [|done]. by rewrite insert_length. }
  assert (HN : length norm1 = length (lv_norm lv) /\ (forall k, i <> Z.of_nat k -> norm1 !! k = lv_norm lv !! k)).
  { destruct (is_softmax _); [|by injection E5 as ->]. apply sset_Ok in E5 as [Hi ->].
    rewrite insert_length. split; [done|]. intros k Hk. apply list_lookup_insert_ne. lia. }
  assert (HS : Forall2 (same_but (eq i)) vs1 vs2 /\ length norm2 = length norm1 /\ (forall k, i <> Z.of_nat k -> norm2 !! k = norm1 !! k)).
  { destruct (is_softmax _); [by eapply soft_loop_same|]. injection E7 as -> -> ->. split; [apply Forall2_refl', same_refl|done]. }
  split; [|done]. destruct HN as [N1 N2], HS as (S1 & S2 & S3). constructor; cbn; try done.
  - lia.
  - intros k Hk. rewrite S3, N2 by done. done.
  - eapply Forall2_transitive; [apply same_trans|done..].
Qed.

Lemma forward_same E num sps nv i feats label off anpl ins nv' :
  ref_forward E num sps nv i feats label off = Ok (anpl, ins, nv') ->
  net_same_but (eq i) nv nv' /\ Z.of_nat (length anpl) = num + 1.
Proof.
  unfold ref_forward. intros H. binv H as a0 E0. binv H as a1 E1. apply make_slice_Ok in E0 as [Hn ->]. apply sset_Ok in E1 as [_ ->].
  revert H. set (P := fun st : list (list Pair) * list Z * NetView => net_same_but (eq i) nv st.2 /\ Z.of_nat (length st.1.1) = num + 1).
  intros H. assert (P (anpl, ins, nv')); [|done]. revert H. apply foldM_preserve.
  - intros [[an is_] nv1] j [[an' is'] nv1'] [H1 H2] H. cbn in H1, H2. unfold ref_forward_layer in H.
    binv H as lv E0. binv H as sp E1. binv H as [[[in_ an1] lv1] g1] E2.
    injection H as <- <- <-. apply query_same in E2 as [Q1 Q2].
    split; [|cbn; lia]. cbn. destruct H1 as [HS HF]. constructor; [done|]. cbn.
    apply sget_Ok in E0 as [_ El]. eapply Forall2_upd; [apply layer_same_trans|done|exact El|done].
  - split; [apply net_same_refl|]. cbn. rewrite insert_length, replicate_length. lia.
Qed.

Lemma predict_one_same E num sps nv i ex c nv' : ref_predict_one E num sps nv i ex = Ok (c, nv') -> net_same_but (eq i) nv nv'.
Proof.
  unfold ref_predict_one. intros H. binv H as [[anpl ins] nv1] E0. binv H as out E1. binv H as lv E2. binv H as [mx cl] E3.
  injection H as <- <-. by apply forward_same in E0 as [? _].
Qed.
