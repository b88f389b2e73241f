(** The training of one example: errors and gradients. *)
From Verif.Spec Require Export TrainSpec.
From Verif.Proofs Require Export NetInfer.
From Coq Require Import Lia ZifyBool ZifyNat.
Local Open Scope Z_scope.

Definition slot0 : Slot := mkSlot fzero fzero fzero.

(** * No error is pending between calls *)
Definition calm (v : NodeView) : Prop := Forall (fun s => s_delta s = fzero) (v_slots v).
Definition lv_calm (lv : LayerView) : Prop := Forall calm (lv_nodes lv).
Definition nv_calm (nv : NetView) : Prop := Forall lv_calm (nv_layers nv).

Lemma calm_set v i s : calm v -> s_delta s = fzero -> calm (v_set_slot v i s).
Proof. intros H Hs. unfold calm. cbn. by apply Forall_insert. Qed.
Lemma calm_at v k s : calm v -> v_slots v !! k = Some s -> s_delta s = fzero.
Proof. unfold calm. rewrite Forall_lookup. eauto. Qed.
Lemma activate_calm v cur i a v' : ref_activate v cur i = Ok (a, v') -> calm v -> calm v'.
Proof.
  unfold ref_activate. destruct (_ <? _); [done|]. intros H HC. binv H as s E1. binv H as x E2. apply sget_Ok in E1 as [_ E1].
  pose proof (calm_at _ _ _ HC E1) as Hd.
  destruct (v_type v); [destruct (fltb _ _)|..]; try done; injection H as <- <-; (apply calm_set; [exact HC|first [reflexivity|exact Hd]]).
Qed.
Lemma set_act_calm v i a v' : ref_set_act v i a = Ok v' -> calm v -> calm v'.
Proof.
  unfold ref_set_act. intros H HC. binv H as s E1. injection H as <-. apply sget_Ok in E1 as [_ E1].
  apply calm_set; [done|]. exact (calm_at _ _ _ HC E1).
Qed.
Lemma act_loop_calm sm cur i next : forall vs pre mx vs' out mx',
  foldM (ref_act_step sm cur i) (vs, (pre, mx)) next = Ok (vs', (out, mx')) -> Forall calm vs -> Forall calm vs'.
Proof.
  induction next as [|p next IH]; intros vs pre mx vs' out mx'; cbn [foldM].
  - by intros [= <- _ _].
  - destruct (ref_act_step _ _ _ _ _) as [[vs1 [pre1 mx1]]|] eqn:E1; [|done]. intros H HC.
    apply act_step_inv in E1 as (v & a & v' & _ & Ev & Ea & -> & _).
    eapply IH; [exact H|]. apply Forall_insert; [done|]. eapply activate_calm; [exact Ea|]. rewrite Forall_lookup in HC. eauto.
Qed.
Lemma soft_loop_calm E i mx next : forall vs norm pre vs' norm' out,
  foldM (ref_soft_step E i mx) (vs, norm, pre) next = Ok (vs', norm', out) -> Forall calm vs -> Forall calm vs'.
Proof.
  induction next as [|p next IH]; intros vs norm pre vs' norm' out; cbn [foldM].
  - by intros [= <- _ _].
  - destruct (ref_soft_step _ _ _ _ _) as [[[vs1 norm1] pre1]|] eqn:E1; [|done]. intros H HC.
    apply soft_step_inv in E1 as (v & v' & x & _ & Ev & Ea & _ & _ & -> & _).
    eapply IH; [exact H|]. apply Forall_insert; [done|]. eapply set_act_calm; [exact Ea|]. rewrite Forall_lookup in HC. eauto.
Qed.
Lemma query_calm E lv anpl li i label sp g in_ anpl' lv' g' :
  ref_query E lv anpl li i label sp g = Ok (in_, anpl', lv', g') -> lv_calm lv -> lv_calm lv'.
Proof.
  intros H HC. apply query_inv in H as (cur & sel & anpl1 & next & norm1 & vs1 & next1 & mx & vs2 & norm2 & next2 & E1 & E2 & E3 & E4 & E5 & E6 & E7 & E8 & ->).
  apply act_loop_calm in E6; [|done]. unfold lv_calm. cbn.
  destruct (is_softmax _); [by eapply soft_loop_calm|]. by injection E7 as <- _ _.
Qed.
Lemma forward_calm E num sps nv i feats label off anpl ins nv' :
  ref_forward E num sps nv i feats label off = Ok (anpl, ins, nv') -> nv_calm nv -> nv_calm nv'.
Proof.
  intros H HC. unfold ref_forward in H. binv H as a0 E0. binv H as a1 E1. clear E0 E1. revert H.
  set (P := fun st : list (list Pair) * list Z * NetView => nv_calm st.2).
  intros H. assert (P (anpl, ins, nv')); [|done]. revert H. apply foldM_preserve; [|done].
  intros [[an is_] nv1] j [[an' is'] nv1'] H1 H. cbn in H1. unfold ref_forward_layer in H.
  binv H as lv E0. binv H as sp E1. binv H as [[[in_ an1] lv1] g1] E2. injection H as <- <- <-.
  unfold P, nv_calm. cbn. apply Forall_insert; [done|]. eapply query_calm; [exact E2|].
  apply sget_Ok in E0 as [_ E0]. unfold P, nv_calm in H1. rewrite Forall_lookup in H1. eauto.
Qed.
Lemma predict_one_calm E num sps nv i ex c nv' : ref_predict_one E num sps nv i ex = Ok (c, nv') -> nv_calm nv -> nv_calm nv'.
Proof.
  unfold ref_predict_one. intros H. binv H as [[anpl ins] nv1] E0. binv H as out E1. binv H as lv E2. binv H as [mx cl] E3.
  injection H as <- <-. intros HC. exact (forward_calm _ _ _ _ _ _ _ _ _ _ _ E0 HC).
Qed.
Lemma predict_calm E num sps nv exs c nv' : ref_predict E num sps nv exs = Ok (c, nv') -> nv_calm nv -> nv_calm nv'.
Proof.
  unfold ref_predict. intros H HC. binv H as lv E0. clear E0.
  set (P := fun st : Z * NetView => nv_calm st.2).
  assert (HP : P (c, nv')); [|exact HP]. revert H. apply foldM_preserve; [|done]. unfold P.
  intros [k nv1] [i ex] [k' nv2] H1 H. cbn in *. binv H as [cl nv3] E1. injection H as _ <-. eapply predict_one_calm; [exact E1|exact H1].
Qed.

(** * One node *)
Lemma alter_insert {A} (f : A -> A) (l : list A) k x : l !! k = Some x -> alter f k l = <[k := f x]> l.
Proof.
  intros H. apply list_eq. intros j. destruct (decide (j = k)) as [->|Hne].
  - rewrite list_lookup_alter, H, list_lookup_insert by (by eapply lookup_lt_Some). done.
  - by rewrite list_lookup_alter_ne, list_lookup_insert_ne by done.
Qed.
Lemma add_at_alter xs i d xs' : add_at xs i d = Ok xs' -> 0 <= i /\ xs' = alter (fun x => fadd x d) (Z.to_nat i) xs.
Proof.
  unfold add_at. intros H. binv H as x E. apply sget_Ok in E as [H0 E]. apply sset_Ok in H as [_ ->]. split; [done|].
  by rewrite (alter_insert _ _ _ _ E).
Qed.

(** What a node learns from its inputs, the bias apart. *)
Definition taught (adam : bool) (lr : float64) (cur : list Pair) (d : float64) (v : NodeView) : NodeView :=
  if adam then v_set_t v (accumulate (fmul d) (v_t v) cur)
  else v_set_w v (accumulate (fun a => fmul lr (fmul d a)) (v_w v) cur).
Lemma grad_taught adam lr v q d v' : ref_grad adam lr v (iv_index q) (fmul d (iv_value q)) = Ok v' ->
  v' = taught adam lr [q] d v.
Proof.
  unfold ref_grad, taught. destruct adam; intros H; binv H as x E; injection H as <-; by apply add_at_alter in E as [_ ->].
Qed.
Lemma taught_cons adam lr q cur d v : taught adam lr (q :: cur) d v = taught adam lr cur d (taught adam lr [q] d v).
Proof. by destruct adam. Qed.
Lemma taught_nil adam lr d v : taught adam lr [] d v = v.
Proof. destruct adam, v; done. Qed.
Lemma first_fold adam lr d cur : forall v v',
  foldM (fun v p => ref_grad adam lr v (iv_index p) (fmul d (iv_value p))) v cur = Ok v' -> v' = taught adam lr cur d v.
Proof.
  induction cur as [|q cur IH]; intros v v'; cbn [foldM].
  - intros [= <-]. by rewrite taught_nil.
  - destruct (ref_grad _ _ _ _ _) as [v1|] eqn:E1; [|done]. intros H. apply grad_taught in E1 as ->.
    rewrite taught_cons. by apply IH.
Qed.
Lemma finish_taught adam lr (first : bool) cur d v i :
  ref_finish adam (if first then fadd lr d else fmul lr d) (taught adam lr cur d v) i d
  = v_set_slot (gradient adam lr first cur d v) i slot0.
Proof. destruct adam; reflexivity. Qed.
Lemma taught_slots adam lr cur d v : v_slots (taught adam lr cur d v) = v_slots v.
Proof. by destruct adam. Qed.
Lemma gradient_set_slot adam lr first cur d v i s :
  gradient adam lr first cur d (v_set_slot v i s) = v_set_slot (gradient adam lr first cur d v) i s.
Proof. by destruct adam. Qed.
Lemma gradient_slots adam lr first cur d v : v_slots (gradient adam lr first cur d v) = v_slots v.
Proof. by destruct adam. Qed.
Lemma gradient_identity adam lr first cur d v : identity (gradient adam lr first cur d v) = identity v.
Proof. by destruct adam. Qed.
Lemma set_slot_id v i s : v_slots v !! Z.to_nat i = Some s -> v_set_slot v i s = v.
Proof. intros H. destruct v. unfold v_set_slot. cbn in *. by rewrite list_insert_id. Qed.

Lemma on_slot x d : on (mkSlot fone x d) = true.
Proof. unfold on. cbn [s_active]. vm_compute. reflexivity. Qed.
Lemma off_slot0 : on slot0 = false.
Proof. vm_compute. reflexivity. Qed.

(** The errors of the inputs [cur], after a node with error [d] and weights [f] has passed its error on. *)
Record bumped (i : Z) (d : float64) (f : Z -> float64) (cur : list Pair) (ps ps' : list NodeView) : Prop := mkBumped {
  bu_len : length ps' = length ps;
  bu_in : forall q pv e, q ∈ cur -> ps !! Z.to_nat (iv_index q) = Some pv -> v_slots pv !! Z.to_nat i = Some (mkSlot fone (iv_value q) e) ->
    ps' !! Z.to_nat (iv_index q) = Some (v_set_slot pv i (mkSlot fone (iv_value q)
      (if fleb (iv_value q) fzero then e else fadd e (fmul d (f (iv_index q))))));
  bu_out : forall k, Z.of_nat k ∉ map iv_index cur -> ps' !! k = ps !! k
}.
Lemma back_fold adam lr i d f cur : forall v ps v' ps',
  NoDup (map iv_index cur) -> 
  (exists s, v_slots v !! Z.to_nat i = Some s /\ s_delta s = d) ->
  (forall q, q ∈ cur -> 0 <= iv_index q /\ (exists e, slot_at ps (iv_index q) i = Some (mkSlot fone (iv_value q) e)) /\
     forall x, v_w v !! Z.to_nat (iv_index q) = Some x -> x = f (iv_index q)) ->
  foldM (ref_backprop_step adam lr i) (v, ps) cur = Ok (v', ps') ->
  v' = taught adam lr cur d v /\ bumped i d f cur ps ps'.
Proof.
  induction cur as [|q cur IH]; intros v ps v' ps' HND Hd HQ; cbn [foldM].
  - intros [= <- <-]. rewrite taught_nil. split; [done|]. constructor; [done| |done]. by intros q pv e Hq%elem_of_nil.
  - destruct (ref_backprop_step _ _ _ _ _) as [[v1 ps1]|] eqn:E1; [|done]. intros H.
    unfold ref_backprop_step in E1. binv E1 as pv Epv. binv E1 as s Es. binv E1 as x Ex. binv E1 as pv' Epv'. binv E1 as s' Es'.
    binv E1 as w Ew. injection E1 as -> <-.
    apply sget_Ok in Epv as [Hq0 Epv]. apply sget_Ok in Es as [Hi Es]. apply sget_Ok in Ex as [_ Ex]. apply sget_Ok in Es' as [_ Es'].
    destruct Hd as (s1 & Hs1 & Hd). rewrite Es in Hs1. injection Hs1 as <-. rewrite Hd in *.
    destruct (HQ q) as (_ & (e & He) & Hf); [by left|]. specialize (Hf _ Ex). subst x.
    unfold slot_at in He. rewrite Epv in He. cbn [mbind option_bind] in He.
    assert (Hpv' : pv' = v_set_slot pv i (mkSlot fone (iv_value q) (if fleb (iv_value q) fzero then e else fadd e (fmul d (f (iv_index q)))))).
    { unfold ref_incr in Epv'. binv Epv' as s2 E2. apply sget_Ok in E2 as [_ E2]. rewrite He in E2. injection E2 as <-.
      rewrite on_slot in Epv'. cbn [negb s_act s_active s_delta] in Epv'. destruct (fleb _ _); injection Epv' as <-; [|done].
      by rewrite set_slot_id. }
    assert (Hs' : slot_act s' = iv_value q).
    { rewrite Hpv' in Es'. cbn [v_slots v_set_slot] in Es'. rewrite list_lookup_insert in Es' by (by eapply lookup_lt_Some).
      injection Es' as <-. unfold slot_act. by rewrite on_slot. }
    rewrite Hs' in Ew. apply grad_taught in Ew as ->.
    cbn [map] in HND. apply NoDup_cons in HND as [Hnin HND].
    apply IH in H as [-> HB]; [|done|..].
    + rewrite <- taught_cons. split; [done|]. destruct HB as [B1 B2 B3]. constructor.
      * by rewrite B1, insert_length.
      * intros p pv1 e1 Hp Hpv1 He1. apply elem_of_cons in Hp as [->|Hp].
        -- rewrite B3 by (by rewrite Z2Nat.id). rewrite list_lookup_insert by (by eapply lookup_lt_Some).
           rewrite Epv in Hpv1. injection Hpv1 as <-. rewrite He in He1. injection He1 as <-. by rewrite Hpv'.
        -- apply B2; [done| |done].
           rewrite list_lookup_insert_ne; [done|]. intros Heq. apply Hnin. apply elem_of_list_fmap. exists p. split; [|done].
           destruct (HQ p) as (Hp0 & _); [by right|]. lia.
      * intros k Hk. cbn [map] in Hk. apply not_elem_of_cons in Hk as [Hk1 Hk2]. rewrite B3 by done.
        apply list_lookup_insert_ne. lia.
    + rewrite taught_slots. eauto.
    + intros p Hp. destruct (HQ p) as (Hp0 & (e1 & He1) & Hfp); [by right|]. 
      assert (Hne : Z.to_nat (iv_index q) <> Z.to_nat (iv_index p)).
      { intros Heq. apply Hnin. apply elem_of_list_fmap. exists p. split; [lia|done]. }
      split; [done|]. split.
      * exists e1. unfold slot_at in *. by rewrite list_lookup_insert_ne.
      * intros x Hx. apply Hfp. destruct adam; [exact Hx|]. cbn in Hx. by rewrite list_lookup_alter_ne in Hx.
Qed.
