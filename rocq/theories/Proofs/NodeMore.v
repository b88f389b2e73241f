(** What the getters return, construction, and consequences used by the properties of nodes. *)
From Verif.Proofs Require Export NodeCow BackpropProofs.
From Coq Require Import Lia ZifyBool ZifyNat.

Lemma get_base_view m c n ly v : rep m c n ly v -> get_base n m =
  Ok (mkBase c (v_type v) (v_batch v) (v_id v) (ly_w ly) (ly_w ly) (ly_mom ly) (ly_vel ly) (ly_t ly)
            (v_bias v) (v_tBias v) (v_momBias v) (v_velBias v) (v_mirrorBias v), m).
Proof.
  intros R. unfold get_base. erewrite bindM_Ok by (apply load_Ok, R). cbn [n_base]. erewrite load_Ok by apply R. done.
Qed.

Lemma sget_len_match {A} (r : res A) m : match r with Ok x => Ok (x, m) | Panic p => Panic p end = lift r m.
Proof. by destruct r. Qed.

Lemma node_reads m c n ly v : rep m c n ly v ->
  (forall i, node_GetT n i m = lift (sget (v_t v) i) m) /\
  (forall i, node_GetAdamAvgMom n i m = lift (sget (v_mom v) i) m) /\
  (forall i, node_GetAdamAvgVel n i m = lift (sget (v_vel v) i) m) /\
  node_GetBias n m = Ok (v_bias v, m) /\ node_GetTBias n m = Ok (v_tBias v, m) /\
  node_GetAdamAvgMomBias n m = Ok (v_momBias v, m) /\ node_GetAdamAvgVelBias n m = Ok (v_velBias v, m) /\
  (s ← node_Weights n; fread s) m = Ok (v_w v, m) /\
  (forall i, node_GetLastActivation n i m = lift (act_of v i) m).
Proof.
  intros R. pose proof (get_base_view _ _ _ _ _ R) as G.
  split_and!; intros.
  - unfold node_GetT. erewrite bindM_Ok by exact G. cbn [b_t]. rewrite (fget_felems _ _ _ i (rep_t _ _ _ _ _ R)). done.
  - unfold node_GetAdamAvgMom. erewrite bindM_Ok by exact G. cbn [b_mom]. rewrite (fget_felems _ _ _ i (rep_mom _ _ _ _ _ R)). done.
  - unfold node_GetAdamAvgVel. erewrite bindM_Ok by exact G. cbn [b_vel]. rewrite (fget_felems _ _ _ i (rep_vel _ _ _ _ _ R)). done.
  - unfold node_GetBias. by erewrite bindM_Ok by exact G.
  - unfold node_GetTBias. by erewrite bindM_Ok by exact G.
  - unfold node_GetAdamAvgMomBias. by erewrite bindM_Ok by exact G.
  - unfold node_GetAdamAvgVelBias. by erewrite bindM_Ok by exact G.
  - unfold node_Weights, mbind, M_bind. rewrite G. cbn. rewrite (fread_felems _ _ _ (rep_w _ _ _ _ _ R)). done.
  - pose proof (GetLastActivation_rep _ _ _ _ _ R i) as H. unfold act_of.
    destruct (sget (v_slots v) i); cbn [mbind res_bind]; [|done].
    destruct H as (a' & m' & -> & -> & ->). done.
Qed.

(** * Construction *)
Lemma mmap_newtrain c (xs : list unit) m :
  mmap (fun _ => NewNodeTrain c) xs m =
    Ok (seq (length (m_tr m)) (length xs), upd_tr (fun r => r ++ replicate (length xs) (mkTrain c fzero fzero fzero)) m).
Proof.
  revert m. induction xs as [|x xs IH]; intros m; cbn [mmap].
  - cbn. f_equal. f_equal. destruct m; unfold upd_tr; cbn. by rewrite app_nil_r.
  - erewrite bindM_Ok by reflexivity. erewrite bindM_Ok by apply IH.
    cbn. rewrite app_length. cbn. replace (length (m_tr m) + 1)%nat with (S (length (m_tr m))) by lia.
    unfold mret, M_ret. f_equal. f_equal. unfold upd_tr; cbn. by rewrite <- app_assoc.
Qed.

Lemma make_slice_Ok {A} (x : A) n xs : make_slice x n = Ok xs -> 0 <= n /\ xs = replicate (Z.to_nat n) x.
Proof. unfold make_slice. destruct (_ <? _) eqn:E; [done|]. intros [= <-]. split; [lia|done]. Qed.

Lemma felems_snoc m s xs a : felems m s = Some xs -> felems (upd_f (fun r => r ++ [a]) m) s = Some xs.
Proof.
  unfold felems. destruct (_ <=? _); [done|]. cbn. destruct (m_f m !! fs_loc s) as [b|] eqn:E; cbn [mbind option_bind]; [|done].
  by rewrite (lookup_app_l_Some _ _ _ _ E).
Qed.

(** The content of a new node. *)
Definition new_view (adam : bool) (adamTDim id : Z) (ty : NodeType) (batch : Z) (w : list float64) (bias : float64)
    (mom vel : list float64) : NodeView :=
  mkView ty batch id w (if adam then mom else []) (if adam then vel else [])
    (if adam then replicate (Z.to_nat adamTDim) fzero else [])
    bias fzero fzero fzero bias (replicate (Z.to_nat batch) (mkSlot fzero fzero fzero)).

Lemma NewNode_rep E m c adamTDim id layerId ty batch ws bias ms vs w mom vel n m' :
  felems m ws = Some w -> felems m ms = Some mom -> felems m vs = Some vel ->
  NewNode E c adamTDim id layerId ty batch ws bias ms vs m = Ok (n, m') ->
  exists ly, rep m' c n ly (new_view (e_UseAdam E) adamTDim id ty batch w bias mom vel).
Proof.
  intros Hw Hm Hv H. unfold NewNode in H. unfold new_view. destruct (e_UseAdam E).
  - apply bindM_inv in H as ([[mo ve] t] & m1 & H1 & H). apply bindM_inv in H1 as (t' & m2 & H1 & H2).
    injection H2 as <- <- <- <-. unfold make_f in H1. rewrite bindM_lift in H1.
    destruct (make_slice fzero adamTDim) as [ta|] eqn:Et; [|done]. apply make_slice_Ok in Et as [Ht0 ->].
    apply bindM_inv in H1 as (l & m3 & H1 & H2). apply alloc_inv in H1 as [-> ->]. injection H2 as <- <-.
    apply bindM_inv in H as (b & m1 & H1 & H). apply alloc_inv in H1 as [-> ->]. rewrite bindM_lift in H.
    destruct (make_slice tt batch) as [ss|] eqn:Es; [|done]. apply make_slice_Ok in Es as [Hb0 ->].
    unfold mbind at 1, M_bind at 1 in H. rewrite mmap_newtrain, replicate_length in H.
    apply bindM_inv in H as (ta & m2 & H1 & H). apply alloc_inv in H1 as [-> ->]. apply alloc_inv in H as [-> ->].
    eexists (mkLay _ _ (seq (length (m_tr m)) (Z.to_nat batch)) _ _ _ _). constructor; cbn.
    + by rewrite lookup_app_r, Nat.sub_diag.
    + by rewrite lookup_app_r, Nat.sub_diag.
    + unfold telems. cbn. destruct (Z.leb_spec batch 0) as [Hle|Hlt].
      * by replace (Z.to_nat batch) with 0%nat by lia.
      * rewrite lookup_app_r, Nat.sub_diag by done. cbn. rewrite seq_length.
        rewrite (proj2 (Z.leb_le _ _)) by lia. rewrite drop_0, take_ge by (rewrite seq_length; lia). done.
    + apply Forall2_same_length_lookup_2; [by rewrite seq_length, replicate_length|].
      intros k l s Hl Hs. apply lookup_seq in Hl as [-> Hk]. apply lookup_replicate in Hs as [-> _]. cbn.
      rewrite lookup_app_r by lia. apply lookup_replicate. split; [done|lia].
    + by apply (felems_snoc m).
    + by apply (felems_snoc m).
    + by apply (felems_snoc m).
    + unfold felems. cbn. destruct (Z.leb_spec adamTDim 0) as [Hle|Hlt].
      * by replace (Z.to_nat adamTDim) with 0%nat by lia.
      * rewrite lookup_app_r, Nat.sub_diag by done. cbn. rewrite replicate_length.
        rewrite (proj2 (Z.leb_le _ _)) by lia. unfold fslice_read. cbn. by rewrite drop_0, take_ge by (rewrite replicate_length; lia).
  - apply bindM_inv in H as ([[mo ve] t] & m1 & H1 & H). injection H1 as <- <- <- <-.
    apply bindM_inv in H as (b & m1 & H1 & H). apply alloc_inv in H1 as [-> ->]. rewrite bindM_lift in H.
    destruct (make_slice tt batch) as [ss|] eqn:Es; [|done]. apply make_slice_Ok in Es as [Hb0 ->].
    unfold mbind at 1, M_bind at 1 in H. rewrite mmap_newtrain, replicate_length in H.
    apply bindM_inv in H as (ta & m2 & H1 & H). apply alloc_inv in H1 as [-> ->]. apply alloc_inv in H as [-> ->].
    eexists (mkLay _ _ (seq (length (m_tr m)) (Z.to_nat batch)) _ _ _ _). constructor; cbn.
    + by rewrite lookup_app_r, Nat.sub_diag.
    + by rewrite lookup_app_r, Nat.sub_diag.
    + unfold telems. cbn. destruct (Z.leb_spec batch 0) as [Hle|Hlt].
      * by replace (Z.to_nat batch) with 0%nat by lia.
      * rewrite lookup_app_r, Nat.sub_diag by done. cbn. rewrite seq_length.
        rewrite (proj2 (Z.leb_le _ _)) by lia. rewrite drop_0, take_ge by (rewrite seq_length; lia). done.
    + apply Forall2_same_length_lookup_2; [by rewrite seq_length, replicate_length|].
      intros k l s Hl Hs. apply lookup_seq in Hl as [-> Hk]. apply lookup_replicate in Hs as [-> _]. cbn.
      rewrite lookup_app_r by lia. apply lookup_replicate. split; [done|lia].
    + exact Hw.
    + done.
    + done.
    + done.
Qed.

(** * In-place Update *)
Lemma Update_same E m c n nd b adamTDim id layerId ty batch ws bias ms vs tb n' m' :
  m_node m !! n = Some nd -> n_cowId nd = c -> m_base m !! n_base nd = Some b -> b_cowId b = c ->
  node_Update E c n adamTDim id layerId ty batch ws bias ms vs tb m = Ok (n', m') -> n' = n.
Proof.
  intros Hn Hc Hb Hbc H. unfold node_Update in H. apply bindM_inv in H as (n1 & m1 & H1 & H).
  unfold node_cloneIfNeeded in H1. erewrite bindM_Ok in H1 by (by apply load_Ok). rewrite Hc, Z.eqb_refl in H1.
  injection H1 as <- <-. apply bindM_inv in H as (? & ? & _ & H). apply bindM_inv in H as (? & ? & _ & H).
  apply bindM_inv in H as ([[??]?] & ? & _ & H). apply bindM_inv in H as (? & ? & _ & H).
  apply bindM_inv in H as (? & ? & _ & H). apply bindM_inv in H as (? & ? & _ & H). by injection H as -> _.
Qed.

(** * Activation *)
Lemma ref_activate_value v data i a v' : ref_activate v data i = Ok (a, v') ->
  exists sum, weighted_sum (v_w v) data = Ok sum /\
    (v_type v = ReLU /\ a = (if fltb (fadd sum (v_bias v)) fzero then fzero else fadd sum (v_bias v)) \/
     v_type v = Softmax /\ a = fadd sum (v_bias v)) /\
    act_of v' i = Ok a.
Proof.
  unfold ref_activate. destruct (v_batch v <? i); [done|].
  destruct (sget (v_slots v) i) as [s|] eqn:Es; cbn [mbind res_bind]; [|done].
  destruct (weighted_sum (v_w v) data) as [sum|]; cbn [mbind res_bind]; [|done].
  destruct (v_type v); [destruct (fltb _ _) eqn:Ef|..]; try done; intros [= <- <-]; exists sum;
    (split; [done|]); (split; [rewrite ?Ef; naive_solver|]); unfold act_of; by erewrite v_set_slot_get by exact Es.
Qed.

Lemma weighted_sum_total w data : (forall p, p ∈ data -> 0 <= iv_index p < Z.of_nat (length w)) ->
  exists s, weighted_sum w data = Ok s.
Proof.
  intros H. unfold weighted_sum.
  destruct (foldM_inv (fun _ => True) (fun s p => x ← sget w (iv_index p); Ok (fadd s (fmul x (iv_value p)))) data fzero)
    as (s & Hs & _); [done| |eauto].
  intros s p _ Hp. destruct (lookup_lt_is_Some_2 w (Z.to_nat (iv_index p))) as [x Hx]; [specialize (H p Hp); lia|].
  rewrite (sget_lookup w (iv_index p) x); [|specialize (H p Hp); lia|done]. cbn [mbind res_bind]. eauto.
Qed.

Lemma run_op_inv E m c n ly v pa ns lys ps o n' m' : situated m c n ly v pa ns lys ps ->
  run_op E c pa n o m = Ok (n', m') ->
  exists v' ps', ref_op (e_UseAdam E) o v ps = Ok (v', ps') /\ n' = n /\ same_objects m m' /\ situated m' c n ly v' pa ns lys ps'.
Proof.
  intros ST H. pose proof (run_op_rep E m c n ly v pa ns lys ps o ST) as H'.
  destruct (ref_op _ _ _ _) as [[v' ps']|] eqn:Er; cbn [refines] in H'; [|congruence].
  destruct H' as (a & m1 & H1 & -> & SO & ST1). rewrite H in H1. injection H1 as -> ->. eauto 10.
Qed.

Lemma cow_slices_shared m c0 c n ly v i x : rep m c0 n ly v -> c <> c0 ->
  (0 <= i < Z.of_nat (length (v_t v)) ->
    exists n' m', node_SetT c n i x m = Ok (n', m') /\ n' <> n /\ node_GetT n i m' = Ok (x, m')) /\
  (0 <= i < Z.of_nat (length (v_mom v)) ->
    exists n' m', node_SetAdamAvgMom c n i x m = Ok (n', m') /\ n' <> n /\ node_GetAdamAvgMom n i m' = Ok (x, m')) /\
  (0 <= i < Z.of_nat (length (v_vel v)) ->
    exists n' m', node_SetAdamAvgVel c n i x m = Ok (n', m') /\ n' <> n /\ node_GetAdamAvgVel n i m' = Ok (x, m')) /\
  (forall x0, sget (v_w v) i = Ok x0 ->
    exists n' m', node_PurturbWeight c n i x m = Ok ((fadd x0 x, n'), m') /\ n' <> n /\
      (s ← node_Weights n; fget s i) m' = Ok (fadd x0 x, m')).
Proof.
  intros R Hc. split_and!.
  - intros Hi. eapply (set_slot_shared b_t (ly_t ly)); [done|done|done|apply R|done].
  - intros Hi. eapply (set_slot_shared b_mom (ly_mom ly)); [done|done|done|apply R|done].
  - intros Hi. eapply (set_slot_shared b_vel (ly_vel ly)); [done|done|done|apply R|done].
  - intros x0 Hx. by eapply perturb_shared.
Qed.

Lemma cow_isolated E m c n nd b trs pa o n' m' :
  foreign m c n nd b trs -> no_slice_write o = true -> run_op E c pa n o m = Ok (n', m') ->
  extends m m' /\ forall c1 n1 ly v, rep m c1 n1 ly v -> rep m' c1 n1 ly v.
Proof.
  intros F Ho H. assert (extends m m') as HX by (by eapply cow_extends). split; [done|].
  intros. by eapply extends_rep.
Qed.

Lemma run_ops_panics E m c n ly v pa ns lys ps ops p :
  situated m c n ly v pa ns lys ps ->
  (ref_ops (e_UseAdam E) ops v ps = Panic p <-> run_ops E c pa n ops m = Panic p).
Proof.
  intros ST. pose proof (run_ops_rep E m c n ly v pa ns lys ps ops ST) as H.
  destruct (ref_ops _ _ _ _) as [r|q]; cbn [refines] in H.
  - destruct H as (a & m' & -> & _). split; done.
  - rewrite H. split; intros [= ->]; done.
Qed.

Lemma activation_value m c n ly v data i a n' m' :
  rep m c n ly v -> ly_ok ly -> node_GetActivation c n data i m = Ok ((a, n'), m') ->
  n' = n /\
  (exists sum, weighted_sum (v_w v) data = Ok sum /\
    (v_type v = ReLU /\ a = (if fltb (fadd sum (v_bias v)) fzero then fzero else fadd sum (v_bias v)) \/
     v_type v = Softmax /\ a = fadd sum (v_bias v))) /\
  (v_type v = ReLU -> fltb a fzero = false) /\
  node_GetLastActivation n i m' = Ok (a, m').
Proof.
  intros R OK H. pose proof (GetActivation_rep _ _ _ _ _ R OK data i) as H'. rewrite H in H'.
  destruct (ref_activate v data i) as [[a1 v1]|] eqn:Er; cbn [refines] in H'; [|done].
  destruct H' as (r & m1 & H1 & Ha & Hn & R1 & _). injection H1 as <- <-. cbn [fst snd] in *. subst a1.
  apply ref_activate_value in Er as (sum & Hs & Hv & Hact).
  destruct (node_reads _ _ _ _ _ R1) as (_&_&_&_&_&_&_&_&HL).
  split; [done|]. split; [eauto|]. split.
  - intros Ht. destruct Hv as [[_ ->]|[? _]]; [|congruence]. destruct (fltb (fadd sum (v_bias v)) fzero) eqn:E; [|done]. done.
  - rewrite HL, Hact. done.
Qed.

Lemma activation_kept E m c n ly v pa ns lys ps data i a n' m1 ops m2 :
  situated m c n ly v pa ns lys ps ->
  node_GetActivation c n data i m = Ok ((a, n'), m1) ->
  Forall (fun o => rewrites i o = false) ops ->
  run_ops E c pa n ops m1 = Ok (tt, m2) ->
  node_GetLastActivation n i m2 = Ok (a, m2).
Proof.
  intros ST H HF Hr.
  destruct (run_op_inv E m c n ly v pa ns lys ps (OGetActivation data i) n' m1 ST) as (v1 & ps1 & Hv & -> & _ & ST1).
  { cbn [run_op]. erewrite bindM_Ok by exact H. done. }
  cbn [ref_op] in Hv. destruct (ref_activate v data i) as [[a1 v1']|] eqn:Er; cbn [mbind res_bind] in Hv; [|done].
  injection Hv as -> ->.
  pose proof (activation_value _ _ _ _ _ _ _ _ _ _ (sit_rep _ _ _ _ _ _ _ _ _ ST) (sit_ok _ _ _ _ _ _ _ _ _ ST) H) as (_ & _ & _ & HL).
  destruct (node_reads _ _ _ _ _ (sit_rep _ _ _ _ _ _ _ _ _ ST1)) as (_&_&_&_&_&_&_&_&HL1).
  rewrite HL1 in HL.
  destruct (run_ops_inv E _ _ _ _ _ _ _ _ _ _ _ ST1 Hr) as (v2 & ps2 & Hv2 & _ & ST2).
  destruct (node_reads _ _ _ _ _ (sit_rep _ _ _ _ _ _ _ _ _ ST2)) as (_&_&_&_&_&_&_&_&HL2).
  rewrite HL2, (ref_ops_keeps_act _ _ _ _ _ _ i Hv2 HF). unfold lift in *.
  destruct (act_of v1 i); [|done]. by injection HL as ->.
Qed.

Lemma activation_returns m c n ly v data i :
  rep m c n ly v -> ly_ok ly -> 0 <= i < Z.of_nat (length (v_slots v)) -> i <= v_batch v -> v_type v <> TypeOther ->
  (forall p, p ∈ data -> 0 <= iv_index p < Z.of_nat (length (v_w v))) ->
  exists r m', node_GetActivation c n data i m = Ok (r, m').
Proof.
  intros R OK Hi Hb Ht Hd. pose proof (GetActivation_rep _ _ _ _ _ R OK data i) as H.
  assert (exists r, ref_activate v data i = Ok r) as [r Er].
  { unfold ref_activate. rewrite (proj2 (Z.ltb_ge _ _)) by lia.
    destruct (lookup_lt_is_Some_2 (v_slots v) (Z.to_nat i)) as [s Hs]; [lia|].
    rewrite (sget_lookup _ i s) by (done || lia). cbn [mbind res_bind].
    destruct (weighted_sum_total _ _ Hd) as [sum ->]. cbn [mbind res_bind].
    destruct (v_type v); [destruct (fltb _ _)|..]; eauto; done. }
  rewrite Er in H. destruct H as (a & m' & -> & _). eauto.
Qed.

Lemma backprop_closed E m c n ly v pa ns lys ps pairs lr i s :
  situated m c n ly v pa ns lys ps ->
  sget (v_slots v) i = Ok s -> NoDup (map iv_index pairs) ->
  backprop_ok (e_UseAdam E) v ps (map iv_index pairs) i ->
  exists m', node_BackPropagate E c n pa pairs lr i m = Ok (n, m') /\
    situated m' c n ly (if e_UseAdam E then node_after_adam v ps (map iv_index pairs) i (s_delta s)
                        else node_after_plain lr v ps (map iv_index pairs) i (s_delta s)) pa ns lys
      (prev_after v ps (map iv_index pairs) i (s_delta s)).
Proof.
  intros ST Hs Hnd Hok. pose proof (run_op_rep E m c n ly v pa ns lys ps (OBackPropagate pairs lr i) ST) as H.
  cbn [run_op ref_op] in H. rewrite (ref_backprop_closed _ _ _ _ _ _ s Hs Hnd Hok) in H.
  destruct H as (a & m' & H & -> & _ & ST'). eauto.
Qed.
Lemma backprop_adam E m c n ly v pa ns lys ps pairs lr i s :
  e_UseAdam E = true ->
  situated m c n ly v pa ns lys ps ->
  sget (v_slots v) i = Ok s -> NoDup (map iv_index pairs) ->
  backprop_ok true v ps (map iv_index pairs) i ->
  exists m', node_BackPropagate E c n pa pairs lr i m = Ok (n, m') /\
    situated m' c n ly (node_after_adam v ps (map iv_index pairs) i (s_delta s)) pa ns lys
      (prev_after v ps (map iv_index pairs) i (s_delta s)).
Proof.
  intros Ha ST Hs Hnd Hok. rewrite <- Ha in Hok.
  destruct (backprop_closed E m c n ly v pa ns lys ps pairs lr i s ST Hs Hnd Hok) as (m' & H & ST').
  rewrite Ha in ST'. eauto.
Qed.
Lemma backprop_plain E m c n ly v pa ns lys ps pairs lr i s :
  e_UseAdam E = false ->
  situated m c n ly v pa ns lys ps ->
  sget (v_slots v) i = Ok s -> NoDup (map iv_index pairs) ->
  backprop_ok false v ps (map iv_index pairs) i ->
  exists m', node_BackPropagate E c n pa pairs lr i m = Ok (n, m') /\
    situated m' c n ly (node_after_plain lr v ps (map iv_index pairs) i (s_delta s)) pa ns lys
      (prev_after v ps (map iv_index pairs) i (s_delta s)).
Proof.
  intros Ha ST Hs Hnd Hok. rewrite <- Ha in Hok.
  destruct (backprop_closed E m c n ly v pa ns lys ps pairs lr i s ST Hs Hnd Hok) as (m' & H & ST').
  rewrite Ha in ST'. eauto.
Qed.

Lemma backprop_returns_iff E m c n ly v pa ns lys ps pairs lr i :
  situated m c n ly v pa ns lys ps ->
  ((exists r m', node_BackPropagate E c n pa pairs lr i m = Ok (r, m')) <->
   backprop_ok (e_UseAdam E) v ps (map iv_index pairs) i).
Proof.
  intros ST. pose proof (run_op_rep E m c n ly v pa ns lys ps (OBackPropagate pairs lr i) ST) as H.
  cbn [run_op ref_op] in H. rewrite <- (ref_backprop_returns _ lr). split.
  - intros (r & m' & Hr). destruct (ref_backprop _ _ _ _ _ _); [eauto|]. cbn [refines] in H. congruence.
  - intros [r Hr]. rewrite Hr in H. destruct H as (a & m' & -> & _). eauto.
Qed.

Lemma ref_grad_biases adam lr v j g v' : ref_grad adam lr v j g = Ok v' ->
  v_bias v' = v_bias v /\ v_tBias v' = v_tBias v /\ v_mirrorBias v' = v_mirrorBias v /\ (adam = true -> v_w v' = v_w v).
Proof.
  unfold ref_grad. destruct adam; [destruct (add_at (v_t v) j g)|destruct (add_at (v_w v) j (fmul lr g))];
    cbn [mbind res_bind]; try done; by intros [= <-].
Qed.

Lemma ref_backprop_biases adam lr v ps pairs i v' ps' s : ref_backprop adam lr v ps pairs i = Ok (v', ps') ->
  sget (v_slots v) i = Ok s ->
  v_bias v' = v_bias v /\ (adam = true -> v_w v' = v_w v) /\
  v_mirrorBias v' = (if adam then v_mirrorBias v else fadd (v_mirrorBias v) (fmul lr (s_delta s))) /\
  v_tBias v' = (if adam then fadd (v_tBias v) (s_delta s) else v_tBias v).
Proof.
  unfold ref_backprop. intros H Hs0. rewrite Hs0 in H. cbn [mbind res_bind] in H. destruct (negb (on s)); [done|].
  destruct (foldM _ (v, ps) pairs) as [[v1 ps1]|] eqn:Ef; cbn [mbind res_bind] in H; [|done]. injection H as <- <-.
  assert (Hs : v_bias (v1, ps1).1 = v_bias v /\ v_tBias (v1, ps1).1 = v_tBias v /\ v_mirrorBias (v1, ps1).1 = v_mirrorBias v /\ (adam = true -> v_w (v1, ps1).1 = v_w v)).
  { eapply (foldM_pres (fun st => v_bias st.1 = v_bias v /\ v_tBias st.1 = v_tBias v /\ v_mirrorBias st.1 = v_mirrorBias v /\ (adam = true -> v_w st.1 = v_w v))); [exact Ef|done|].
    intros [v2 ps2] p [v3 ps3] (I1 & I2 & I3 & I4) Hst. cbn [fst] in *. unfold ref_backprop_step in Hst. bind_inv Hst.
    injection Hst as <- <-. match goal with H : ref_grad _ _ _ _ _ = Ok _ |- _ => apply ref_grad_biases in H as (? & ? & ? & Hw) end.
    split_and!; try congruence. intros Ha. rewrite Hw by done. auto. }
  cbn [fst] in Hs. destruct Hs as (H1 & H2 & H3 & H4). unfold ref_finish.
  destruct adam; cbn; rewrite ?H1, ?H2, ?H3; split_and!; auto; done.
Qed.

Lemma ref_first_biases adam lr v pairs i v' s : ref_backprop_first adam lr v pairs i = Ok v' ->
  sget (v_slots v) i = Ok s ->
  v_bias v' = v_bias v /\
  v_mirrorBias v' = (if adam then v_mirrorBias v else fadd (v_mirrorBias v) (fadd lr (s_delta s))) /\
  v_tBias v' = (if adam then fadd (v_tBias v) (s_delta s) else v_tBias v).
Proof.
  unfold ref_backprop_first. intros H Hs0. rewrite Hs0 in H. cbn [mbind res_bind] in H. destruct (negb (on s)); [done|].
  destruct (foldM _ v pairs) as [v1|] eqn:Ef; cbn [mbind res_bind] in H; [|done]. injection H as <-.
  assert (Hs : v_bias v1 = v_bias v /\ v_tBias v1 = v_tBias v /\ v_mirrorBias v1 = v_mirrorBias v).
  { eapply (foldM_pres (fun v1 => v_bias v1 = v_bias v /\ v_tBias v1 = v_tBias v /\ v_mirrorBias v1 = v_mirrorBias v)); [exact Ef|done|].
    intros v2 p v3 (I1 & I2 & I3) Hst. apply ref_grad_biases in Hst as (? & ? & ? & _). split_and!; congruence. }
  destruct Hs as (H1 & H2 & H3). unfold ref_finish. destruct adam; cbn; rewrite ?H1, ?H2, ?H3; done.
Qed.

Lemma first_layer_plain E m c n ly v pairs lr i s n' m' :
  e_UseAdam E = false -> rep m c n ly v -> ly_ok ly -> sget (v_slots v) i = Ok s ->
  node_BackPropagateFirstLayer E c n pairs lr i m = Ok (n', m') ->
  exists v', rep m' c n ly v' /\ v_bias v' = v_bias v /\ v_mirrorBias v' = fadd (v_mirrorBias v) (fadd lr (s_delta s)).
Proof.
  intros Ha R OK Hs H. pose proof (BackPropagateFirstLayer_rep E m c n ly v pairs lr i R OK) as H'. rewrite Ha in H'.
  destruct (ref_backprop_first _ _ _ _ _) as [v'|] eqn:Er; cbn [refines] in H'; [|congruence].
  destruct H' as (a & m1 & H1 & _ & R' & _). rewrite H in H1. injection H1 as -> ->.
  destruct (ref_first_biases _ _ _ _ _ _ _ Er Hs) as (? & ? & ?). eauto.
Qed.

Lemma bias_steps E m c n ly v pa ns lys ps pairs lr i s :
  situated m c n ly v pa ns lys ps -> sget (v_slots v) i = Ok s ->
  (forall n' m', node_BackPropagate E c n pa pairs lr i m = Ok (n', m') ->
    exists v', rep m' c n ly v' /\ v_bias v' = v_bias v /\
      v_mirrorBias v' = (if e_UseAdam E then v_mirrorBias v else fadd (v_mirrorBias v) (fmul lr (s_delta s))) /\
      v_tBias v' = (if e_UseAdam E then fadd (v_tBias v) (s_delta s) else v_tBias v)) /\
  (forall n' m', e_UseAdam E = true -> node_BackPropagateFirstLayer E c n pairs lr i m = Ok (n', m') ->
    exists v', rep m' c n ly v' /\ v_bias v' = v_bias v /\ v_mirrorBias v' = v_mirrorBias v /\
      v_tBias v' = fadd (v_tBias v) (s_delta s)).
Proof.
  intros ST Hs. split.
  - intros n' m' H. destruct (run_op_inv E m c n ly v pa ns lys ps (OBackPropagate pairs lr i) n' m' ST H) as (v' & ps' & Hv & -> & _ & ST').
    cbn [ref_op] in Hv. destruct (ref_backprop_biases _ _ _ _ _ _ _ _ _ Hv Hs) as (? & _ & ? & ?).
    exists v'. split; [apply ST'|done].
  - intros n' m' Ha H. destruct (run_op_inv E m c n ly v pa ns lys ps (OBackPropagateFirstLayer pairs lr i) n' m' ST H) as (v' & ps' & Hv & -> & _ & ST').
    cbn [ref_op] in Hv. rewrite Ha in Hv. destruct (ref_backprop_first true lr v pairs i) as [v1|] eqn:Er; cbn [mbind res_bind] in Hv; [|done].
    injection Hv as -> _. destruct (ref_first_biases _ _ _ _ _ _ _ Er Hs) as (? & ? & ?).
    exists v'. split; [apply ST'|done].
Qed.

Lemma backprop_visible E m c n ly v pa ns lys ps pairs lr i s :
  e_UseAdam E = false ->
  situated m c n ly v pa ns lys ps ->
  sget (v_slots v) i = Ok s -> NoDup (map iv_index pairs) ->
  backprop_ok false v ps (map iv_index pairs) i ->
  exists m', node_BackPropagate E c n pa pairs lr i m = Ok (n, m') /\
    (w ← node_Weights n; fread w) m' =
      Ok (upd_set (map iv_index pairs) (fun j w => fadd w (fmul lr (fmul (s_delta s) (act_at ps i j)))) (v_w v), m').
Proof.
  intros Ha ST Hs Hnd Hok. destruct (backprop_plain E m c n ly v pa ns lys ps pairs lr i s Ha ST Hs Hnd Hok) as (m' & H & ST').
  exists m'. split; [done|]. destruct (node_reads _ _ _ _ _ (sit_rep _ _ _ _ _ _ _ _ _ ST')) as (_&_&_&_&_&_&_&HW&_). exact HW.
Qed.

Lemma backprop_then_copy E m c n ly v pa ns lys ps pairs lr i n' m' :
  situated m c n ly v pa ns lys ps ->
  node_BackPropagate E c n pa pairs lr i m = Ok (n', m') ->
  exists v' ps', situated m' c n ly v' pa ns lys ps' /\ v_bias v' = v_bias v /\
    (e_UseAdam E = true -> v_w v' = v_w v) /\
    exists m'', node_CopyWeightsAndBiasFromMirror c n m' = Ok (n, m'') /\
      node_GetBias n m'' = Ok (v_mirrorBias v', m'') /\
      (w ← node_Weights n; fread w) m'' = Ok (v_w v', m'').
Proof.
  intros ST H. destruct (run_op_inv E m c n ly v pa ns lys ps (OBackPropagate pairs lr i) n' m' ST H) as (v' & ps' & Hv & -> & _ & ST').
  cbn [ref_op] in Hv. assert (exists s, sget (v_slots v) i = Ok s) as [s Hs].
  { unfold ref_backprop in Hv. destruct (sget (v_slots v) i); [eauto|done]. }
  destruct (ref_backprop_biases _ _ _ _ _ _ _ _ _ Hv Hs) as (? & ? & ? & ?).
  exists v', ps'. split; [done|]. split; [done|]. split; [done|].
  destruct (CopyMirror_rep _ _ _ _ _ (sit_rep _ _ _ _ _ _ _ _ _ ST')) as (m'' & Hc & R'' & _).
  exists m''. split; [done|]. destruct (node_reads _ _ _ _ _ R'') as (_&_&_&HB&_&_&_&HW&_). split; [exact HB|exact HW].
Qed.
