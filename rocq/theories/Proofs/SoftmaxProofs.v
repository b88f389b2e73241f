(** The exponents of a softmax layer are not positive. *)
From Verif.Proofs Require Import NetInfer FloatSub.
Local Open Scope Z_scope.

Lemma weighted_sum_representable w cur s : Forall representable w -> Forall (fun p => representable (iv_value p)) cur ->
  weighted_sum w cur = Ok s -> representable s.
Proof.
  intros Hw Hc. unfold weighted_sum. set (P := fun (_ : list Pair) (s : float64) => representable s).
  intros H. change (P cur s). revert H. apply foldM_keep; [done|].
  intros pre p s0 s1 HP Hpre H. binv H as x E1. injection H as <-. apply fadd_representable; [done|].
  apply sget_Ok in E1 as [_ E1]. rewrite Forall_lookup in Hw. rewrite Forall_forall in Hc.
  apply fmul_representable; [by eapply Hw|]. apply Hc. destruct Hpre as [q ->]. set_solver.
Qed.
Lemma activation_representable v cur a : Forall representable (v_w v) -> representable (v_bias v) ->
  Forall (fun p => representable (iv_value p)) cur -> activation v cur a -> representable a.
Proof.
  intros Hw Hb Hc (s & Hs & Ha). pose proof (weighted_sum_representable _ _ _ Hw Hc Hs) as Hr.
  pose proof (fadd_representable _ _ Hr Hb). destruct (v_type v); [destruct (fltb _ _)|..]; try done; by rewrite Ha.
Qed.
Lemma exponents_not_pos lv cur ids acts mx : layer_representable lv cur -> activations lv cur ids acts -> greatest acts mx ->
  Forall (fun a => fltb fzero (fsub a mx) = false) acts.
Proof.
  intros [HR HC] HA HGr. destruct (greatest_bound _ _ HGr) as (_ & Hin & HG).
  assert (Hr : Forall representable acts).
  { apply Forall_forall. intros a [k Hk]%elem_of_list_lookup. destruct (Forall2_lookup_r _ _ _ _ _ HA Hk) as (id & _ & _ & v & Hv & Ha).
    rewrite Forall_lookup in HR. destruct (HR _ _ Hv). by eapply activation_representable. }
  assert (Hm : representable mx).
  { apply elem_of_cons in Hin as [->|Hin]; [done|]. rewrite Forall_forall in Hr. by apply Hr. }
  apply Forall_cons in HG as [_ HG]. rewrite Forall_forall in *. intros a Ha. apply fsub_not_pos; [by apply Hr|done|by apply HG].
Qed.
Lemma softmax_exponents E c arr lls nv j ll lv anpl li i label sp m in_ anpl' lp' m' cur :
  lays_ok lls -> net_rep m c arr lls nv -> lls !! j = Some ll -> nv_layers nv !! j = Some lv ->
  is_softmax (lv_type lv) = true -> sget anpl li = Ok cur -> layer_representable lv cur ->
  layer_Query E c (ll_ptr ll) anpl li i label sp m = Ok ((in_, anpl', lp'), m') ->
  exists acts mx, activations lv cur (active_of anpl' li) acts /\ greatest acts mx /\
    anpl' !! Z.to_nat (li + 1) = Some (zip_with mkPair (active_of anpl' li) (exps E acts mx)) /\
    Forall (fun a => fltb fzero (fsub a mx) = false) acts.
Proof.
  intros LO R Hll Hlv Hs Hc HR H.
  pose proof (query_ref E c arr lls LO j ll Hll m nv lv anpl li i label sp R Hlv) as RF.
  eapply refines_Ok in RF as ([[[in1 an1] lv1] g1] & RQ & [Ha _]); [|exact H]. cbn [fst snd] in *. injection Ha as -> -> ->.
  pose proof (query_same _ _ _ _ _ _ _ _ _ _ _ _ RQ) as [_ QL].
  eapply softmax_query in H as (cur' & acts & mx & lv' & g & _ & _ & Hc' & HA & HG & Han & _); [|done..].
  rewrite Hc in Hc'. injection Hc' as <-. exists acts, mx. split; [done|]. split; [done|]. split.
  - rewrite Han at 1. apply list_lookup_insert. apply query_full in RQ as (? & ? & ? & ? & ? & ? & ? & ? & ? & _). done.
  - by eapply exponents_not_pos.
Qed.
