(** One training example in closed form. *)
From Verif.Proofs Require Export NetBack.
From Coq Require Import Lia ZifyBool ZifyNat.
Local Open Scope Z_scope.

(** Every node knows its position and the batch size. *)
Definition placed (batch : Z) (lv : LayerView) : Prop :=
  forall k v, lv_nodes lv !! k = Some v -> v_id v = Z.of_nat k /\ v_batch v = batch.

Lemma layer_same_kept I lv lv' : layer_same_but I lv lv' -> layer_kept lv lv'.
Proof. intros []. constructor; try done. symmetry. by eapply Forall2_length. Qed.
Lemma kept_set_nodes lv vs : length vs = length (lv_nodes lv) -> layer_kept lv (lv_set_nodes lv vs).
Proof. intros. by constructor. Qed.
Lemma kept_trans l1 l2 l3 : layer_kept l1 l2 -> layer_kept l2 l3 -> layer_kept l1 l3.
Proof. intros [] []. constructor; congruence. Qed.
Lemma kept_refl l : layer_kept l l.
Proof. by constructor. Qed.

Lemma rev_seqZ_at N pre x : pre ++ [x] `prefix_of` rev (seqZ 0 (Z.of_nat N)) ->
  (length pre < N)%nat /\ x = Z.of_nat (N - S (length pre)).
Proof.
  intros [q Hq]. assert (Hl : rev (seqZ 0 (Z.of_nat N)) !! length pre = Some x).
  { rewrite Hq, <- (assoc_L (++)). by apply list_lookup_middle. }
  rewrite rev_alt in Hl. change (reverse (seqZ 0 (Z.of_nat N)) !! length pre = Some x) in Hl.
  pose proof (lookup_lt_Some _ _ _ Hl) as HL. rewrite reverse_length, seqZ_length in HL.
  rewrite reverse_lookup in Hl by (rewrite seqZ_length; lia). rewrite seqZ_length in Hl. apply lookup_seqZ in Hl. split; lia.
Qed.

(** The error of each active node of layer [j], given those of the next layer. *)
Definition err_of (batch : Z) (L0 : list LayerView) (lab : list Z) (anpl : list (list Pair)) (j : nat) (next : option (list float64)) (p : Pair) : float64 :=
  match L0 !! S j, anpl !! S (S j), next with
  | Some lv', Some out', Some d' => hidden_error (lv_nodes lv') (zip out' d') p
  | _, _, _ => output_error batch lab (fold_left fadd (map iv_value (default [] (anpl !! S j))) fzero) p
  end.
Lemma passed_on_hidden vs err next q : passed_on vs err next q fzero = hidden_error vs (zip next (map err next)) q.
Proof.
  unfold passed_on, hidden_error. destruct (fleb _ _); [done|]. generalize fzero.
  induction next as [|p next IH]; intros e; [done|]. cbn [fold_left map]. change (zip (p :: next) (err p :: map err next)) with ((p, err p) :: zip next (map err next)).
  cbn [fold_left]. apply IH.
Qed.

Lemma hidden_error_ext vs vs' l p : (forall k q, weight_of vs k q = weight_of vs' k q) -> hidden_error vs l p = hidden_error vs' l p.
Proof.
  intros H. unfold hidden_error. destruct (fleb _ _); [done|]. generalize fzero. induction l as [|[q d] l IH]; intros e; [done|].
  cbn [fold_left]. by rewrite H, IH.
Qed.

(** The layers [b] and later have been processed. *)
Record back_upto (E : env) (batch : Z) (lr : float64) (lab : list Z) (i : Z) (anpl : list (list Pair)) (L0 : list LayerView) (b : nat)
    (ds : list (list float64)) (L : list LayerView) : Prop := mkUpto {
  up_len : length L = length L0;
  up_before : forall j, (S j < b)%nat -> L !! j = L0 !! j;
  up_next : forall j0 lv0 out, b = S j0 -> L0 !! j0 = Some lv0 -> anpl !! b = Some out ->
    exists ps, L !! j0 = Some (lv_set_nodes lv0 ps) /\ length ps = length (lv_nodes lv0) /\
      (forall p v, p ∈ out -> lv_nodes lv0 !! Z.to_nat (iv_index p) = Some v -> exists e,
         ps !! Z.to_nat (iv_index p) = Some (v_set_slot v i (mkSlot fone (iv_value p) e)) /\
         ((b < length L0)%nat -> e = err_of batch L0 lab anpl j0 (ds !! 0%nat) p)) /\
      (forall k, Z.of_nat k ∉ map iv_index out -> ps !! k = lv_nodes lv0 !! k);
  up_ds : length ds = (length L0 - b)%nat;
  up_done : forall j lv0 cur out, (b <= j)%nat -> L0 !! j = Some lv0 -> anpl !! j = Some cur -> anpl !! S j = Some out ->
    exists vs, L !! j = Some (lv_set_nodes lv0 vs) /\ length vs = length (lv_nodes lv0) /\
      ds !! (j - b)%nat = Some (map (err_of batch L0 lab anpl j (ds !! (S j - b)%nat)) out) /\
      (forall p v, p ∈ out -> lv_nodes lv0 !! Z.to_nat (iv_index p) = Some v ->
         vs !! Z.to_nat (iv_index p) = Some (v_set_slot (gradient (e_UseAdam E) lr (bool_decide (j = 0%nat)) cur (err_of batch L0 lab anpl j (ds !! (S j - b)%nat) p) v) i slot0)) /\
      (forall k, Z.of_nat k ∉ map iv_index out -> vs !! k = lv_nodes lv0 !! k)
}.

Lemma all_NoDup E lr ex i anpl nv0 N nv' : foldM (ref_backward_layer E (Z.of_nat N) i ex lr anpl) nv0 (rev (seqZ 0 (Z.of_nat N))) = Ok nv' ->
  forall j out, (j < N)%nat -> anpl !! S j = Some out -> NoDup (map iv_index out).
Proof.
  intros H.
  set (P := fun (pre : list Z) (nv : NetView) => forall j out, (N - length pre <= j < N)%nat -> anpl !! S j = Some out -> NoDup (map iv_index out)).
  assert (HP : P (rev (seqZ 0 (Z.of_nat N))) nv').
  2:{ intros j out Hj. apply HP. rewrite rev_length, seqZ_length. lia. }
  revert H. apply foldM_keep.
  - intros j out. cbn. lia.
  - intros pre x nv1 nv2 HP Hpre H. apply rev_seqZ_at in Hpre as [Hlt ->]. intros j out Hj Ho. rewrite app_length in Hj. cbn [length] in Hj.
    destruct (decide (j = N - S (length pre))%nat) as [->|Hne]; [|apply (HP j); [lia|done]].
    unfold ref_backward_layer in H. binv H as lv E1. binv H as cur E2. binv H as next E3.
    apply sget_Ok in E3 as [_ E3]. replace (Z.to_nat (Z.of_nat (N - S (length pre)) + 1)) with (S (N - S (length pre))) in E3 by lia.
    rewrite Ho in E3. injection E3 as <-. by eapply back_layer_NoDup.
Qed.

Section Back.
Context (E : env) (batch : Z) (lr : float64) (ex : Example_) (i : Z) (anpl : list (list Pair)) (nv0 : NetView).
Let L0 := nv_layers nv0.
Let N := length L0.
Hypothesis Hanpl : length anpl = S N.
Hypothesis Hfirst : anpl !! 0%nat = Some (features ex).
Hypothesis Hcalm : nv_calm nv0.
Hypothesis Hplaced : Forall (placed batch) L0.
Hypothesis Hslots : forall j lv out p, L0 !! j = Some lv -> anpl !! S j = Some out -> p ∈ out ->
  0 <= iv_index p /\ exists d, slot_at (lv_nodes lv) (iv_index p) i = Some (mkSlot fone (iv_value p) d).
Hypothesis Hnorm : forall j lv out, L0 !! j = Some lv -> anpl !! S j = Some out -> is_softmax (lv_type lv) = true ->
  0 <= i /\ lv_norm lv !! Z.to_nat i = Some (fold_left fadd (map iv_value out) fzero).

Lemma back_slot j lv out p : L0 !! j = Some lv -> anpl !! S j = Some out -> p ∈ out ->
  0 <= iv_index p /\ exists v, lv_nodes lv !! Z.to_nat (iv_index p) = Some v /\ v_slots v !! Z.to_nat i = Some (mkSlot fone (iv_value p) fzero) /\
    v_id v = iv_index p /\ v_batch v = batch.
Proof.
  intros HL Ho Hp. destruct (Hslots _ _ _ _ HL Ho Hp) as (H0 & d & Hd). split; [done|].
  unfold slot_at in Hd. destruct (lv_nodes lv !! Z.to_nat (iv_index p)) as [v|] eqn:Ev; [|done]. cbn [mbind option_bind] in Hd.
  assert (d = fzero) as ->.
  { unfold nv_calm in Hcalm. rewrite Forall_lookup in Hcalm. specialize (Hcalm _ _ HL). unfold lv_calm in Hcalm. rewrite Forall_lookup in Hcalm.
    specialize (Hcalm _ _ Ev). exact (calm_at _ _ _ Hcalm Hd). }
  exists v. split; [done|]. split; [done|]. rewrite Forall_lookup in Hplaced. destruct (Hplaced _ _ HL _ _ Ev) as [-> ->]. split; [lia|done].
Qed.

Lemma back_all nv' :
  foldM (ref_backward_layer E (Z.of_nat N) i ex lr anpl) nv0 (rev (seqZ 0 (Z.of_nat N))) = Ok nv' ->
  exists ds, back_upto E batch lr (labels ex) i anpl L0 0 ds (nv_layers nv') /\ nv_seeds nv' = nv_seeds nv0.
Proof.
  intros H. pose proof (all_NoDup _ _ _ _ _ _ _ _ H) as HND.
  set (P := fun (pre : list Z) (nv : NetView) => exists ds, back_upto E batch lr (labels ex) i anpl L0 (N - length pre) ds (nv_layers nv) /\ nv_seeds nv = nv_seeds nv0).
  assert (HP : P (rev (seqZ 0 (Z.of_nat N))) nv').
  2:{ destruct HP as (ds & HP & HS). rewrite rev_length, seqZ_length in HP. replace (N - Z.to_nat (Z.of_nat N))%nat with 0%nat in HP by lia. eauto. }
  revert H. apply foldM_keep.
  - exists []. split; [|done]. cbn [length]. rewrite Nat.sub_0_r. constructor; fold L0.
    + done.
    + done.
    + intros j0 lv0 out Hj0 EL0 Ho. exists (lv_nodes lv0). rewrite lv_set_nodes_id. split; [done|]. split; [done|]. split; [|done].
      intros p v Hp Hv. exists fzero. split; [|subst N; lia]. rewrite Hj0 in Ho. destruct (back_slot _ _ _ _ EL0 Ho Hp) as (_ & v' & Ev' & Es & _).
      rewrite Hv in Ev'. injection Ev' as <-. rewrite Hv. f_equal. by rewrite set_slot_id.
    + cbn. subst N. lia.
    + intros j lv0 cur out Hj EL0. apply lookup_lt_Some in EL0. subst N. lia.
  - intros pre x nv1 nv2 (ds & HU & HS) Hpre H. apply rev_seqZ_at in Hpre as [Hlt ->].
    set (b := (N - length pre)%nat) in *. set (j := (N - S (length pre))%nat) in *.
    assert (Hb : b = S j) by lia. assert (Hj : (j < N)%nat) by lia. assert (Hb2 : (N - length (pre ++ [Z.of_nat j]))%nat = j) by (rewrite app_length; cbn; lia).
    unfold ref_backward_layer in H. binv H as lv1 E1. binv H as cur E2. binv H as out E3.
    apply sget_Ok in E1 as [_ E1]. rewrite Nat2Z.id in E1. apply sget_Ok in E2 as [_ E2]. rewrite Nat2Z.id in E2.
    apply sget_Ok in E3 as [_ E3]. replace (Z.to_nat (Z.of_nat j + 1)) with (S j) in E3 by lia.
    destruct (lookup_lt_is_Some_2 L0 j Hj) as [lv0 EL0].
    destruct HU as [U1 U2 U3 U4 U5]. rewrite Hb in U3. destruct (U3 j lv0 out eq_refl EL0 E3) as (ps & EL & Lps & Pin & Pout).
    rewrite EL in E1. injection E1 as <-.
    set (err := err_of batch L0 (labels ex) anpl j (ds !! 0%nat)).
    assert (Hlast : (j = N - 1)%nat <-> ~ (S j < length L0)%nat) by (subst N; lia).
    assert (Herr_last : ~ (S j < length L0)%nat -> forall p, err p = output_error batch (labels ex) (fold_left fadd (map iv_value out) fzero) p).
    { intros HN p. unfold err, err_of. rewrite (proj2 (lookup_ge_None L0 (S j))) by lia. by rewrite E3. }
    set (pv0 := match j with O => None | S j0 => L0 !! j0 end).
    assert (HB : back_layer (e_UseAdam E) lr i j cur out err (lv_set_nodes lv0 ps) pv0 (nv_layers nv1) (nv_layers nv2) /\ nv_seeds nv2 = nv_seeds nv1).
    { apply (back_layer_spec E (Z.of_nat N) i ex lr j cur out err (lv_set_nodes lv0 ps) pv0 nv1 nv2 H).
      - by apply (HND j).
      - intros j0 Hj0. apply (HND j0); [lia|]. by rewrite <- Hj0.
      - done.
      - intros j0 Hj0. unfold pv0. rewrite Hj0. apply U2. lia.
      - intros Hj0. rewrite Hj0, Hfirst in E2. by injection E2 as <-.
      - intros p Hp. destruct (back_slot _ _ _ _ EL0 E3 Hp) as (Hp0 & v & Ev & Es & Eid & Eb). split; [done|].
        destruct (Pin _ _ Hp Ev) as (e & Ee & He). cbn [lv_nodes lv_set_nodes lv_norm].
        exists (v_set_slot v i (mkSlot fone (iv_value p) e)), (mkSlot fone (iv_value p) e). split; [done|].
        split; [cbn; apply list_lookup_insert; by eapply lookup_lt_Some|].
        intros norm Hn. unfold node_error. destruct (Z.of_nat j =? Z.of_nat N - 1) eqn:Ej.
        + rewrite Herr_last by (subst N; lia). unfold output_error. cbn [s_act v_id v_batch v_set_slot]. rewrite Eid, Eb.
          assert (Hnn : norm = fold_left fadd (map iv_value out) fzero); [|by rewrite Hnn].
          assert (Hjl : Z.of_nat j = Z.of_nat N - 1) by lia. specialize (Hn Hjl).
          (* the last layer is a softmax layer *)
          destruct out as [|p' out']; [by apply elem_of_nil in Hp|]. cbn [foldM] in H.
          destruct (ref_backward_node _ _ _ _ _ _ _ _ _) as [nvx|] eqn:Ex; [|discriminate H].
          apply backward_node_inv in Ex as (lvx & vx & sx & nx & v1x & v2x & ELx & _ & _ & _ & _ & _ & Hsm & _).
          rewrite EL in ELx. injection ELx as <-. destruct (Hsm Hjl) as [Hsm1 _]. cbn [lv_type lv_set_nodes] in Hsm1.
          destruct (Hnorm _ _ _ EL0 E3 Hsm1) as [_ Hnn]. rewrite Hnn in Hn. by injection Hn as <-.
        + cbn [s_delta]. symmetry. apply He. subst N. lia.
      - intros j0 pv Hj0 Hpv q Hq. unfold pv0 in Hpv. rewrite Hj0 in Hpv. rewrite Hj0 in E2. 
        destruct (back_slot _ _ _ _ Hpv E2 Hq) as (Hq0 & v & Ev & Es & _). split; [done|]. exists fzero. unfold slot_at. rewrite Ev. exact Es.
      - intros _ j0 Hj0. unfold pv0. rewrite Hj0. apply lookup_lt_is_Some_2. fold N. lia. }
    destruct HB as [[B1 B2 B3 B4] BS].
    exists (map err out :: ds). split; [|congruence]. rewrite Hb2. constructor.
    + congruence.
    + intros j' Hj'. rewrite B2 by lia. apply U2. lia.
    + intros j0 lvp outp Hj0 ELp Hop. rewrite Hj0, E2 in Hop || (rewrite E2 in Hop). injection Hop as <-.
      destruct (B4 _ Hj0) as (pv & ps' & Epv & ELp' & Lps' & Qin & Qout). unfold pv0 in Epv. rewrite Hj0, ELp in Epv. injection Epv as <-.
      exists ps'. split; [done|]. split; [done|]. split; [|done]. intros q v Hq Hv. 
      rewrite Hj0 in E2. destruct (back_slot _ _ _ _ ELp E2 Hq) as (_ & v' & Ev' & Es & _). rewrite Hv in Ev'. injection Ev' as <-.
      eexists. split; [exact (Qin _ _ _ Hq Hv Es)|]. intros _. unfold err_of. rewrite <- Hj0, EL0, E3. cbn [lookup list_lookup].
      rewrite passed_on_hidden. cbn [lv_nodes lv_set_nodes]. apply hidden_error_ext. intros k x. unfold weight_of.
      destruct (decide (Z.of_nat (Z.to_nat k) ∈ map iv_index out)) as [Hin|Hin]; [|by rewrite Pout].
      apply elem_of_list_fmap in Hin as (p & Hp & Hpin). destruct (back_slot _ _ _ _ EL0 E3 Hpin) as (_ & w & Ew & _).
      destruct (Pin _ _ Hpin Ew) as (e & Ee & _). rewrite <- Hp, Nat2Z.id in Ee, Ew. by rewrite Ee, Ew.
    + cbn [length]. rewrite U4. lia.
    + intros j' lv' cur' out' Hj' EL' Ec Eo. destruct (decide (j' = j)) as [->|Hne].
      * rewrite EL0 in EL'. injection EL' as <-. rewrite E2 in Ec. injection Ec as <-. rewrite E3 in Eo. injection Eo as <-.
        destruct B3 as (vs & Evs & Lvs & Vin & Vout). cbn [lv_nodes lv_set_nodes] in *. exists vs.
        split; [done|]. split; [lia|]. rewrite Nat.sub_diag. replace (S j - j)%nat with 1%nat by lia.
        cbn [lookup list_lookup]. fold (@lookup nat (list float64) (list (list float64)) _ 0%nat ds). fold err. split; [done|]. split.
        -- intros p v Hp Hv. destruct (Pin _ _ Hp Hv) as (e & Ee & _). rewrite (Vin _ _ Hp Ee).
           by rewrite gradient_set_slot, set_slot_twice.
        -- intros k Hk. rewrite Vout by done. by apply Pout.
      * destruct (U5 j' lv' cur' out') as (vs & Evs & Lvs & Eds & Vin & Vout); [lia|done..|].
        exists vs. split; [rewrite B2 by lia; done|]. split; [done|].
        replace (j' - j)%nat with (S (j' - b)) by lia. replace (S j' - j)%nat with (S (S j' - b)) by lia. done.
Qed.
End Back.

Lemma passed_pos E lvs sps off label feats i k anpl cur j lv out p : passed E lvs sps off label feats i k anpl cur -> (j < k)%nat -> (k <= length lvs)%nat ->
  lvs !! j = Some lv -> anpl !! S j = Some out -> p ∈ out -> 0 <= iv_index p.
Proof.
  intros HP Hj Hk HL Ho Hp. destruct (lookup_lt_is_Some_2 anpl j) as [c Hc]; [rewrite (pa_len _ _ _ _ _ _ _ _ _ _ HP); lia|].
  destruct (pa_at _ _ _ _ _ _ _ _ _ _ HP _ _ _ _ Hj HL Hc Ho) as (sp & ids & _ & _ & _ & acts & HA & HO).
  apply elem_of_list_lookup in Hp as [a Ha].
  assert (HX : exists xs, out = zip_with mkPair ids xs /\ length ids = length xs).
  { pose proof (Forall2_length _ _ _ HA) as HL'. destruct (is_softmax _); [destruct HO as (mx & _ & ->)|rewrite HO]; eexists; (split; [reflexivity|]); [by rewrite exps_length|done]. }
  destruct HX as (xs & -> & Hlen). apply lookup_zip_with_Some in Ha as (id & x & -> & Hid & _). cbn [iv_index].
  destruct (Forall2_lookup_l _ _ _ _ _ HA Hid) as (y & _ & H0 & _). done.
Qed.

Lemma gradient_learned adam lr first cur d v v' : learned v' = learned v ->
  learned (gradient adam lr first cur d v') = learned (gradient adam lr first cur d v).
Proof.
  unfold learned. intros [= Hw Hm Hv Ht Hb Htb Hmb Hvb Hrb]. unfold gradient. destruct adam; cbn [v_w v_mom v_vel v_t v_bias v_tBias v_momBias v_velBias v_mirrorBias v_set_biases v_set_t v_set_w].
  - by rewrite Hw, Hm, Hv, Ht, Hb, Htb, Hmb, Hvb, Hrb.
  - by rewrite Hw, Hm, Hv, Ht, Hb, Htb, Hmb, Hvb, Hrb.
Qed.

Lemma train_one_spec E num batch sps lr nv i ex ins nv' :
  num = Z.of_nat (length (nv_layers nv)) -> nv_calm nv -> Forall (placed batch) (nv_layers nv) ->
  ref_train_one E num sps lr nv (i, ex) = Ok (ins, nv') ->
  example_step E batch sps lr ex (nv_layers nv) (nv_layers nv') /\ nv_calm nv' /\ nv_seeds nv' = nv_seeds nv /\
  (forall j lv lv', nv_layers nv !! j = Some lv -> nv_layers nv' !! j = Some lv' ->
     Forall2 (fun v v' => length (v_slots v') = length (v_slots v)) (lv_nodes lv) (lv_nodes lv')).
Proof.
  intros -> HC HPl H. unfold ref_train_one in H. binv H as [[anpl ins1] nv0] E1. binv H as nv1 E2. injection H as <- <-.
  pose proof (forward_same _ _ _ _ _ _ _ _ _ _ _ E1) as [NS Hlen].
  pose proof (forward_calm _ _ _ _ _ _ _ _ _ _ _ E1 HC) as HC0.
  pose proof (forward_passed E (eq i) _ _ nv nv _ _ _ _ _ _ _ (net_same_refl _ _) eq_refl E1) as HP.
  assert (HN : length (nv_layers nv0) = length (nv_layers nv)) by (symmetry; eapply Forall2_length; apply NS).
  assert (HPl0 : Forall (placed batch) (nv_layers nv0)).
  { apply Forall_lookup. intros j lv0 Hlv0. destruct (Forall2_lookup_r _ _ _ _ _ (ns_layers _ _ _ NS) Hlv0) as (lv & Hlv & LS).
    intros k v0 Hv0. destruct (Forall2_lookup_r _ _ _ _ _ (ls_nodes _ _ _ LS) Hv0) as (v & Hv & SB).
    rewrite Forall_lookup in HPl. destruct (HPl _ _ Hlv _ _ Hv) as [<- <-]. pose proof (sb_identity _ _ _ SB) as HI. unfold identity in HI.
    by injection HI as _ -> ->. }
  rewrite <- HN in E2. pose proof (all_NoDup E lr ex i anpl nv0 _ _ E2) as HND. rewrite HN in HND. apply (back_all E batch lr ex i anpl nv0) in E2 as (ds & HU & HSd).
  2:{ lia. }
  2:{ by apply HP. }
  2,3: done.
  2:{ intros j lv0 out p Hlv0 Ho Hp. pose proof (lookup_lt_Some _ _ _ Hlv0) as Hj. rewrite HN in Hj.
      destruct (lookup_lt_is_Some_2 (nv_layers nv) j Hj) as [lv Hlv]. split; [by eapply passed_pos|]. by eapply (pa_slots _ _ _ _ _ _ _ _ _ _ HP j). }
  2:{ intros j lv0 out Hlv0 Ho. pose proof (lookup_lt_Some _ _ _ Hlv0) as Hj. rewrite HN in Hj. by apply (pa_norm _ _ _ _ _ _ _ _ _ _ HP j). }
  destruct HU as [U1 _ _ U4 U5]. rewrite Nat.sub_0_r in U4.
  (* each layer *)
  assert (HL : forall j lv lv1, nv_layers nv !! j = Some lv -> nv_layers nv1 !! j = Some lv1 ->
    exists cur out lv0, nv_layers nv0 !! j = Some lv0 /\ layer_same_but (eq i) lv lv0 /\ anpl !! j = Some cur /\ anpl !! S j = Some out /\
      length (lv_nodes lv1) = length (lv_nodes lv0) /\ lv1 = lv_set_nodes lv0 (lv_nodes lv1) /\
      ds !! j = Some (map (err_of batch (nv_layers nv0) (labels ex) anpl j (ds !! S j)) out) /\
      (forall p v, p ∈ out -> lv_nodes lv0 !! Z.to_nat (iv_index p) = Some v ->
         lv_nodes lv1 !! Z.to_nat (iv_index p) = Some (v_set_slot (gradient (e_UseAdam E) lr (bool_decide (j = 0%nat)) cur (err_of batch (nv_layers nv0) (labels ex) anpl j (ds !! S j) p) v) i slot0)) /\
      (forall k, Z.of_nat k ∉ map iv_index out -> lv_nodes lv1 !! k = lv_nodes lv0 !! k)).
  { intros j lv lv1 Hlv Hlv1. destruct (Forall2_lookup_l _ _ _ _ _ (ns_layers _ _ _ NS) Hlv) as (lv0 & Hlv0 & LS).
    pose proof (lookup_lt_Some _ _ _ Hlv) as Hj.
    destruct (lookup_lt_is_Some_2 anpl j) as [cur Hcur]; [lia|]. destruct (lookup_lt_is_Some_2 anpl (S j)) as [out Hout]; [lia|].
    destruct (U5 j lv0 cur out) as (vs & Evs & Lvs & Eds & Vin & Vout); [lia|done..|]. rewrite Nat.sub_0_r in Eds, Vin.
    rewrite Evs in Hlv1. injection Hlv1 as <-. cbn [lv_nodes lv_set_nodes]. exists cur, out, lv0. replace (S j - 0)%nat with (S j) in * by lia. done. }
  assert (HW : forall j lv lv0, nv_layers nv !! j = Some lv -> nv_layers nv0 !! j = Some lv0 -> forall k q, weight_of (lv_nodes lv0) k q = weight_of (lv_nodes lv) k q).
  { intros j lv lv0 Hlv Hlv0 k q. pose proof (Forall2_lookup_lr _ _ _ _ _ _ (ns_layers _ _ _ NS) Hlv Hlv0) as LS. unfold weight_of.
    pose proof (Forall2_length _ _ _ (ls_nodes _ _ _ LS)) as Hl.
    destruct (lv_nodes lv !! Z.to_nat k) as [v|] eqn:Ev.
    - destruct (Forall2_lookup_l _ _ _ _ _ (ls_nodes _ _ _ LS) Ev) as (v0 & -> & SB). cbn. pose proof (sb_learned _ _ _ SB) as HLe. unfold learned in HLe. by injection HLe as -> _.
    - apply lookup_ge_None in Ev. rewrite (proj2 (lookup_ge_None (lv_nodes lv0) _)) by lia. done. }
  assert (HK : forall j lv lv1 k v v1, nv_layers nv !! j = Some lv -> nv_layers nv1 !! j = Some lv1 -> lv_nodes lv !! k = Some v -> lv_nodes lv1 !! k = Some v1 ->
    exists v0, (forall lv0, nv_layers nv0 !! j = Some lv0 -> lv_nodes lv0 !! k = Some v0) /\ same_but (eq i) v v0 /\
      (v1 = v0 \/ exists adm lr' fi cu x, v1 = v_set_slot (gradient adm lr' fi cu x v0) i slot0)).
  { intros j lv lv1 k v v1 Hlv Hlv1 Hv Hv1.
    destruct (HL _ _ _ Hlv Hlv1) as (cur & out & lv0 & Hlv0 & LS & _ & _ & Hl & _ & _ & Vin & Vout).
    destruct (Forall2_lookup_l _ _ _ _ _ (ls_nodes _ _ _ LS) Hv) as (v0 & Hv0 & SB). exists v0.
    split; [|split; [done|]].
    - intros lv0' Hlv0'. rewrite Hlv0 in Hlv0'. by injection Hlv0' as <-.
    - destruct (decide (Z.of_nat k ∈ map iv_index out)) as [Hin|Hin].
      + apply elem_of_list_fmap in Hin as (p & Hp & Hpin). assert (Hk : k = Z.to_nat (iv_index p)) by lia. rewrite Hk in Hv0, Hv1.
        rewrite (Vin _ _ Hpin Hv0) in Hv1. injection Hv1 as <-. right. eauto 10.
      + left. rewrite Vout in Hv1 by done. rewrite Hv0 in Hv1. by injection Hv1 as <-. }
  split; [|split; [|split]].
  - constructor.
    + apply Forall2_same_length_lookup_2; [lia|]. intros j lv lv1 Hlv Hlv1.
      destruct (HL _ _ _ Hlv Hlv1) as (cur & out & lv0 & _ & LS & _ & _ & Hl & -> & _).
      eapply kept_trans; [by eapply layer_same_kept|]. by apply kept_set_nodes.
    + exists anpl, ds. split; [|split].
      * split; [lia|]. split; [apply HP|]. intros j lv cur out Hlv Hcur Hout. pose proof (lookup_lt_Some _ _ _ Hlv) as Hj.
        destruct (pa_at _ _ _ _ _ _ _ _ _ _ HP _ _ _ _ Hj Hlv Hcur Hout) as (sp & ids & _ & Hsp & Hch & Hlo).
        rewrite Z.add_0_l, Nat2Z.id in Hsp. eauto.
      * split; [lia|]. intros j out d Hout Hd. assert (Hj : (j < length (nv_layers nv))%nat) by (apply lookup_lt_Some in Hd; lia).
        destruct (lookup_lt_is_Some_2 (nv_layers nv) j Hj) as [lv Hlv]. destruct (lookup_lt_is_Some_2 (nv_layers nv1) j) as [lv1 Hlv1]; [lia|].
        destruct (HL _ _ _ Hlv Hlv1) as (cur & out' & lv0 & _ & _ & _ & Hout' & _ & _ & Hd' & _). rewrite Hout in Hout'. injection Hout' as <-.
        rewrite Hd in Hd'. injection Hd' as ->. unfold err_of. rewrite Hout. cbn [default].
        destruct (nv_layers nv !! S j) as [lvn|] eqn:En.
        -- pose proof (lookup_lt_Some _ _ _ En) as Hj1. destruct (lookup_lt_is_Some_2 (nv_layers nv0) (S j)) as [lvn0 En0]; [lia|]. rewrite En0.
           destruct (lookup_lt_is_Some_2 anpl (S (S j))) as [on ->]; [lia|]. destruct (lookup_lt_is_Some_2 ds (S j)) as [dn ->]; [lia|].
           apply map_ext. intros p. apply hidden_error_ext. by eapply HW.
        -- apply lookup_ge_None in En. rewrite (proj2 (lookup_ge_None (nv_layers nv0) (S j))) by lia. done.
      * intros j lv lv1 cur out d Hlv Hlv1 Hcur Hout Hd.
        destruct (HL _ _ _ Hlv Hlv1) as (cur' & out' & lv0 & Hlv0 & LS & Hcur' & Hout' & Hl & _ & Hd' & Vin & Vout).
        rewrite Hcur in Hcur'. injection Hcur' as <-. rewrite Hout in Hout'. injection Hout' as <-. rewrite Hd in Hd'. injection Hd' as ->.
        split; [apply (HND j); [by eapply lookup_lt_Some|done]|].
        intros k v v1 Hv Hv1. destruct (HK _ _ _ _ _ _ Hlv Hlv1 Hv Hv1) as (v0 & Hv0 & SB & HX).
        pose proof (sb_learned _ _ _ SB) as HLe. pose proof (sb_identity _ _ _ SB) as HI. rewrite <- HI. split; [|split].
        -- destruct HX as [->|(adm & lr' & fi & cu & x & ->)]; [done|]. exact (gradient_identity adm lr' fi cu x v0).
        -- intros a p x Ha Hp Hx. apply list_lookup_fmap_inv in Hx as (p' & -> & Ha'). rewrite Ha in Ha'. injection Ha' as <-.
           assert (Hk : k = Z.to_nat (iv_index p)) by lia. rewrite Hk in Hv1, Hv0.
           assert (Hlv0v : lv_nodes lv0 !! Z.to_nat (iv_index p) = Some v0).
           { destruct (Forall2_lookup_l _ _ _ _ _ (ns_layers _ _ _ NS) Hlv) as (lv0' & Hlv0' & _). by eapply Hv0. }
           rewrite (Vin p v0) in Hv1; [|by eapply elem_of_list_lookup_2|done]. injection Hv1 as <-.
           change (learned (v_set_slot ?y i slot0)) with (learned y). by apply gradient_learned.
        -- intros Hk. rewrite Vout in Hv1 by done. rewrite (Hv0 _ Hlv0) in Hv1. by injection Hv1 as <-.
  - apply Forall_lookup. intros j lv1 Hlv1. pose proof (lookup_lt_Some _ _ _ Hlv1) as Hj. destruct (lookup_lt_is_Some_2 (nv_layers nv) j) as [lv Hlv]; [lia|].
    apply Forall_lookup. intros k v1 Hv1. destruct (HL _ _ _ Hlv Hlv1) as (_ & _ & lv0 & Hlv0 & LS & _ & _ & Hl & _).
    pose proof (lookup_lt_Some _ _ _ Hv1) as Hk. destruct (lookup_lt_is_Some_2 (lv_nodes lv) k) as [v Hv].
    { rewrite (Forall2_length _ _ _ (ls_nodes _ _ _ LS)). lia. }
    destruct (HK _ _ _ _ _ _ Hlv Hlv1 Hv Hv1) as (v0 & Hv0 & _ & HX). specialize (Hv0 _ Hlv0).
    assert (Hc : calm v0).
    { unfold nv_calm in HC0. rewrite Forall_lookup in HC0. specialize (HC0 _ _ Hlv0). unfold lv_calm in HC0. rewrite Forall_lookup in HC0. by eapply HC0. }
    destruct HX as [->|(adm & lr' & fi & cu & x & ->)]; [done|]. apply calm_set; [|done]. unfold calm. by rewrite gradient_slots.
  - rewrite HSd. apply NS.
  - intros j lv lv1 Hlv Hlv1. destruct (HL _ _ _ Hlv Hlv1) as (_ & _ & lv0 & Hlv0 & LS & _ & _ & Hl & _).
    pose proof (Forall2_length _ _ _ (ls_nodes _ _ _ LS)) as Hl0.
    apply Forall2_same_length_lookup_2; [lia|]. intros k v v1 Hv Hv1.
    destruct (HK _ _ _ _ _ _ Hlv Hlv1 Hv Hv1) as (v0 & _ & SB & HX). rewrite <- (sb_len _ _ _ SB).
    destruct HX as [->|(adm & lr' & fi & cu & x & ->)]; [done|]. cbn. by rewrite insert_length, gradient_slots.
Qed.
