(** The ranges of outputs and errors, along all histories. *)
From Verif.Spec Require Import LayerSpec RangeSpec.
From Verif.Proofs Require Import FloatReal FloatSub FloatRange BaseProofs NetInfer SoftmaxProofs NetCalls BatchProofs AdamProofs.
From Coq Require Import Reals Psatz.
From Flocq Require Import BinarySingleNaN.
Local Open Scope Z_scope.
Local Notation bf := (binary_float 53 1024).

(** ** Shares and errors *)
Definition good (x : bf) : Prop := x = B754_nan \/ inside 0 1 x.
Lemma plus_nan (x : bf) : Bplus mode_NE x B754_nan = B754_nan /\ Bplus mode_NE B754_nan x = B754_nan.
Proof. by destruct x. Qed.
Lemma sum_above (es : list bf) (acc : bf) : Forall good es -> acc = B754_nan \/ above 0 acc ->
  let s := fold_left (Bplus mode_NE) es acc in
  fold_left fadd (map B2SF es) (B2SF acc) = B2SF s /\
  (s = B754_nan \/ (above 0 s /\ (forall r, above r acc -> above r s) /\ Forall (fun e => inside 0 1 e /\ above (B2R e) s) es)).
Proof.
  revert acc. induction es as [|e es IH]; intros acc HE HA; cbn [fold_left map].
  - split; [done|]. destruct HA as [HA|HA]; [by left|right]. split; [done|]. split; [done|constructor].
  - apply Forall_cons in HE as [He HE]. cbv zeta. rewrite fadd_B.
    assert (HN : acc = B754_nan \/ e = B754_nan \/ above 0 acc /\ inside 0 1 e).
    { destruct HA as [HA|HA]; [by left|]. destruct He as [He|He]; [by right; left|by right; right]. }
    destruct HN as [->|[->|[Ha Hi]]].
    + rewrite (proj2 (plus_nan e)). destruct (IH B754_nan HE (or_introl eq_refl)) as [I1 I2]. split; [done|]. left.
      clear. induction es as [|e es IH]; [done|]. cbn [fold_left]. by rewrite (proj2 (plus_nan e)).
    + rewrite (proj1 (plus_nan acc)). destruct (IH B754_nan HE (or_introl eq_refl)) as [I1 I2]. split; [done|]. left.
      clear. induction es as [|e es IH]; [done|]. cbn [fold_left]. by rewrite (proj2 (plus_nan e)).
    + pose proof (inside_above _ _ _ Hi) as He0.
      destruct (plus_above acc e 0 Ha He0 (or_introl Ha)) as [_ HP0].
      destruct (IH (Bplus mode_NE acc e) HE (or_intror HP0)) as [I1 I2]. split; [done|]. destruct I2 as [I2|(I2 & I3 & I4)]; [by left|right].
      split; [done|]. split.
      * intros r Hr. apply I3. by apply (plus_above acc e r Ha He0 (or_introl Hr)).
      * constructor; [|done]. split; [done|]. apply I3. apply (plus_above acc e _ Ha He0). right. right. split; [apply Hi|apply Rle_refl].
Qed.

Lemma em7_val : exists b : bf, (dec 1 (10 ^ 7)%Z) = B2SF b /\ is_finite b = true /\ (0 < B2R b)%R.
Proof.
  destruct (representable_B (dec 1 (10 ^ 7)%Z)) as [H _]. destruct H as [b Hb]; [vm_compute; reflexivity|]. exists b. split; [done|].
  assert (H1 : exists m e, (dec 1 (10 ^ 7)%Z) = S754_finite false m e) by (eexists _, _; vm_compute; reflexivity).
  destruct H1 as (m & e & H1). rewrite H1 in Hb. destruct b as [s|s| |s m' e' B]; try discriminate Hb. injection Hb as <- <- <-. split; [done|].
  cbn [B2R]. apply Float_prop.F2R_gt_0. reflexivity.
Qed.

Lemma shares_ok out : Forall (fun p => representable (iv_value p) /\ within fzero fone (iv_value p)) out -> shares_in_range out.
Proof.
  intros HO p Hp.
  assert (HB : exists es, map iv_value out = map (@B2SF 53 1024) es /\ Forall good es).
  { clear p Hp. induction HO as [|p out [Hr Hw] _ (es & H1 & H2)]; [by exists []|]. apply representable_B in Hr as [b Hb].
    exists (b :: es). cbn [map]. rewrite H1, Hb. split; [done|]. constructor; [|done]. rewrite Hb in Hw. by apply within_unit in Hw. }
  destruct HB as (es & HE & HG). destruct (sum_above es (B754_zero false) HG) as [S1 S2].
  { right. right. split; [done|]. apply Rle_refl. }
  cbv zeta in *. set (s := fold_left (Bplus mode_NE) es (B754_zero false)) in *. rewrite HE.
  change fzero with (@B2SF 53 1024 (B754_zero false)) at 2. rewrite S1.
  assert (HV : exists e, iv_value p = B2SF e /\ e ∈ es).
  { apply elem_of_list_lookup in Hp as [k Hk]. assert (Hm : map iv_value out !! k = Some (iv_value p)) by (rewrite list_lookup_fmap, Hk; done).
    rewrite HE, list_lookup_fmap in Hm. apply fmap_Some in Hm as (e & He & ->). exists e. split; [done|]. by eapply elem_of_list_lookup_2. }
  destruct HV as (e & -> & Hin). destruct em7_val as (z & -> & Fz & Z). rewrite fadd_B, fdiv_B. apply within_unit.
  destruct S2 as [->|(S0 & _ & SE)].
  - left. rewrite (proj2 (plus_nan z)). by destruct e.
  - right. rewrite Forall_forall in SE. destruct (SE _ Hin) as [[Fe Ee] Ae].
    assert (Az : above 0 z) by (right; split; [done|lra]).
    apply div_inside; [done|lra|by apply plus_above; auto|by apply plus_above; auto|].
    destruct (plus_above s z (B2R z) S0 Az (or_intror (or_intror (conj Fz (Rle_refl _))))) as [[->|[_ H]] _]; [by right|left; lra].
Qed.

Lemma div_nan (x : bf) : Bdiv mode_NE B754_nan x = B754_nan. Proof. by destruct x. Qed.
Lemma error_ok batch lab norm p : 1 <= batch -> representable (iv_value p) -> representable norm ->
  within fzero fone (fdiv (iv_value p) (fadd norm (dec 1 (10 ^ 7)%Z))) ->
  let x := output_error batch lab norm p in
  representable x /\ within fmone fone x /\ (iv_index p ∉ lab -> within fmone fzero x) /\
  (iv_index p ∈ lab -> Z.of_nat (length lab) <= batch -> within fzero fone x).
Proof.
  intros HB Hv Hn HW. unfold output_error.
  assert (Hr : representable (fdiv (iv_value p) (fadd norm (dec 1 (10 ^ 7)%Z)))).
  { apply fdiv_representable; [done|]. apply fadd_representable; [done|]. destruct em7_val as (z & -> & _). apply representable_B. by exists z. }
  cbv zeta. revert Hr HW. generalize (fdiv (iv_value p) (fadd norm (dec 1 (10 ^ 7)%Z))). intros a Hr HW.
  apply representable_B in Hr as [b ->]. apply within_unit in HW.
  rewrite !f_of_Z_B, !fdiv_B, ?fneg_B.
  pose proof (BofZ_above batch HB) as AB.
  assert (NB : (B2R (BofZ batch) <> 0%R \/ BofZ batch = B754_infinity false)) by (destruct AB as [->|[_ H]]; [by right|left; lra]).
  case_bool_decide as Hin.
  - assert (HL : 1 <= Z.of_nat (length lab)) by (destruct lab; [by apply elem_of_nil in Hin|cbn; lia]).
    pose proof (BofZ_above _ HL) as AL. destruct fone_val as (o & HO & O1 & O2).
    assert (HD : fdiv fone (B2SF (BofZ (Z.of_nat (length lab)))) = B2SF (Bdiv mode_NE o (BofZ (Z.of_nat (length lab))))) by (rewrite HO; apply fdiv_B).
    rewrite HD, fsub_B.
    split; [apply representable_B; eauto|]. rewrite within_all, within_neg, within_unit.
    destruct HW as [->|[Fb Bb]].
    { assert (HN : forall y : bf, Bminus mode_NE y (Bdiv mode_NE B754_nan (BofZ batch)) = B754_nan) by (intros y; rewrite div_nan; by destruct y).
      rewrite !HN. split; [by left|]. split; [|by left]. intros ?; done. }
    assert (I1 : inside 0 1 (Bdiv mode_NE o (BofZ (Z.of_nat (length lab))))).
    { apply div_inside; [done|lra|by rewrite O1|eapply above_le; [|exact AL]; lra|destruct AL as [->|[_ H]]; [by right|left; lra]]. }
    assert (I2 : inside 0 1 (Bdiv mode_NE b (BofZ batch))).
    { apply div_inside; [done|lra|eapply above_le; [|exact AB]; lra|eapply above_le; [|exact AB]; lra|done]. }
    destruct (minus_inside _ _ I1 I2) as [M1 M2]. split; [by right|]. split; [done|]. intros _ HLB. right. apply M2.
    apply div_mono; try done; [lra|lra|]. by apply BofZ_mono.
  - rewrite fdiv_B. split; [apply representable_B; eauto|]. rewrite within_all, within_neg. destruct HW as [->|[Fb Bb]].
    { cbn [Bopp]. rewrite div_nan. split; [by left|]. split; [by left|done]. }
    assert (I : inside (-1) 0 (Bdiv mode_NE (Bopp b) (BofZ batch))).
    { apply div_neg_inside; [done|lra|eapply above_le; [|exact AB]; lra|done]. }
    split; [right; destruct I as [F [I1 I2]]; split; [done|lra]|]. split; [by right|done].
Qed.

(** ** One pass *)
(** The parameters inference uses are binary64 numbers, and every node has its layer's type. *)
Definition layers_ok (lvs : list LayerView) : Prop :=
  Forall (fun lv => Forall (fun v => v_type v = lv_type lv /\ Forall representable (v_w v) /\ representable (v_bias v)) (lv_nodes lv)) lvs.
Definition pairs_ok (cur : list Pair) : Prop := Forall (fun p => representable (iv_value p)) cur.

Lemma output_ok E lv cur ids out : math_ok E ->
  Forall (fun v => v_type v = lv_type lv /\ Forall representable (v_w v) /\ representable (v_bias v)) (lv_nodes lv) ->
  pairs_ok cur -> layer_output E lv cur ids out ->
  Forall (fun p => representable (iv_value p) /\
    match lv_type lv with ReLU => not_negative (iv_value p) | Softmax => within fzero fone (iv_value p) | TypeOther => True end) out.
Proof.
  intros [ME ME1 _] HN HC (acts & HA & HO).
  assert (HR : layer_representable lv cur).
  { split; [|done]. eapply Forall_impl; [exact HN|]. by intros v (_ & ? & ?). }
  assert (Hr : Forall (fun a => representable a /\ (lv_type lv = ReLU -> not_negative a)) acts).
  { apply Forall_forall. intros a [k Hk]%elem_of_list_lookup. destruct (Forall2_lookup_r _ _ _ _ _ HA Hk) as (id & _ & _ & v & Hv & Ha).
    rewrite Forall_lookup in HN. destruct (HN _ _ Hv) as (Ht & Hw & Hb). split; [by eapply activation_representable|].
    intros HT. destruct Ha as (s & _ & Ha). rewrite Ht, HT in Ha. subst a. unfold not_negative. destruct (fltb (fadd s (v_bias v)) fzero) eqn:EF; [reflexivity|exact EF]. }
  destruct (is_softmax (lv_type lv)) eqn:ES.
  - destruct (lv_type lv) eqn:ET; try discriminate ES.
    destruct HO as (mx & HG & ->). pose proof (exponents_not_pos _ _ _ _ _ HR HA HG) as HX.
    destruct (greatest_bound _ _ HG) as (_ & Hin & _).
    assert (Hm : representable mx).
    { apply elem_of_cons in Hin as [->|Hin]; [done|]. rewrite Forall_forall in Hr. by apply Hr. }
    apply Forall_lookup. intros k p Hk. apply lookup_zip_with_Some in Hk as (id & e & -> & _ & He). cbn [iv_value].
    unfold exps in He. rewrite list_lookup_fmap in He. apply fmap_Some in He as (a & Ha & ->).
    rewrite Forall_lookup in Hr, HX. destruct (Hr _ _ Ha) as [Hra _]. pose proof (fsub_representable _ _ Hra Hm) as Hs.
    split; [by apply ME|]. apply ME1; [done|]. by eapply HX.
  - subst out. apply Forall_lookup. intros k p Hk. apply lookup_zip_with_Some in Hk as (id & a & -> & _ & Ha). cbn [iv_value].
    rewrite Forall_lookup in Hr. destruct (Hr _ _ Ha) as [H1 H2]. split; [done|]. destruct (lv_type lv); [by apply H2|discriminate ES|done].
Qed.
Lemma outputs_ok E lvs sps off lab feats outs : math_ok E -> layers_ok lvs -> pairs_ok feats -> inference E lvs sps off lab feats outs ->
  outputs_in_range (map lv_type lvs) outs /\ Forall pairs_ok outs.
Proof.
  intros HM HL HF (Hlen & H0 & HS).
  assert (HA : forall j out, outs !! j = Some out -> pairs_ok out).
  { induction j as [|j IH]; intros out Ho; [rewrite H0 in Ho; by injection Ho as <-|].
    destruct (lookup_lt_is_Some_2 lvs j) as [lv Hlv]; [apply lookup_lt_Some in Ho; lia|].
    destruct (lookup_lt_is_Some_2 outs j) as [cur Hcur]; [apply lookup_lt_Some in Ho; lia|].
    destruct (HS _ _ _ _ Hlv Hcur Ho) as (sp & ids & _ & _ & HO). unfold layers_ok in HL. rewrite Forall_lookup in HL.
    pose proof (output_ok _ _ _ _ _ HM (HL _ _ Hlv) (IH _ Hcur) HO) as HF1. eapply Forall_impl; [exact HF1|]. by intros p [? _]. }
  split; [|apply Forall_lookup; exact HA].
  intros j ty out p Hty Ho Hp. rewrite list_lookup_fmap in Hty. apply fmap_Some in Hty as (lv & Hlv & ->).
  destruct (lookup_lt_is_Some_2 outs j) as [cur Hcur]; [apply lookup_lt_Some in Ho; lia|].
  destruct (HS _ _ _ _ Hlv Hcur Ho) as (sp & ids & _ & _ & HO). unfold layers_ok in HL. rewrite Forall_lookup in HL.
  pose proof (output_ok _ _ _ _ _ HM (HL _ _ Hlv) (HA _ _ Hcur) HO) as HF1. rewrite Forall_forall in HF1. by apply HF1.
Qed.

Lemma weight_of_ok vs k q : Forall (fun v => Forall representable (v_w v)) vs -> representable (weight_of vs k q).
Proof.
  intros HV. unfold weight_of. destruct (vs !! Z.to_nat k) as [v|] eqn:Ev; cbn; [|done]. destruct (v_w v !! Z.to_nat q) as [w|] eqn:Ew; cbn; [|done].
  rewrite Forall_lookup in HV. specialize (HV _ _ Ev). cbn in HV. rewrite Forall_lookup in HV. by eapply HV.
Qed.
Lemma hidden_ok vs act p : Forall (fun v => Forall representable (v_w v)) vs -> Forall (fun qd : Pair * float64 => representable qd.2) act ->
  representable (hidden_error vs act p).
Proof.
  intros HV HA. unfold hidden_error. destruct (fleb _ _); [done|].
  assert (HG : forall acc, representable acc -> representable (fold_left (fun acc '(q, d) => fadd acc (fmul d (weight_of vs (iv_index q) (iv_index p)))) act acc)).
  { induction HA as [|[q d] act Hd _ IH]; intros acc Hacc; [done|]. cbn [fold_left]. apply IH. apply fadd_representable; [done|].
    apply fmul_representable; [done|]. by apply weight_of_ok. }
  by apply HG.
Qed.
Lemma sum_ok xs acc : Forall representable xs -> representable acc -> representable (fold_left fadd xs acc).
Proof. intros H. revert acc. induction H as [|x xs Hx _ IH]; intros acc Ha; [done|]. apply IH. by apply fadd_representable. Qed.
Lemma output_error_ok batch lab norm p : representable norm -> representable (iv_value p) -> representable (output_error batch lab norm p).
Proof.
  intros Hn Hp. unfold output_error. cbv zeta.
  assert (Ha : representable (fdiv (iv_value p) (fadd norm (dec 1 (10 ^ 7)%Z)))).
  { apply fdiv_representable; [done|]. apply fadd_representable; [done|]. apply fdiv_representable; apply f_of_Z_representable. }
  destruct (bool_decide _).
  - apply fsub_representable; apply fdiv_representable; try apply f_of_Z_representable; done.
  - apply fdiv_representable; [by apply fneg_representable|apply f_of_Z_representable].
Qed.
Lemma errors_ok batch lvs lab outs ds : layers_ok lvs -> Forall pairs_ok outs -> length outs = S (length lvs) -> errors batch lvs lab outs ds ->
  Forall (Forall representable) ds.
Proof.
  intros HL HP Ho (Hlen & HE). apply Forall_lookup. intros j d.
  remember (length ds - j)%nat as m eqn:Em. revert j d Em. induction m as [|m IH]; intros j d Em Hd.
  { apply lookup_lt_Some in Hd. lia. }
  destruct (lookup_lt_is_Some_2 outs (S j)) as [out Hout]; [apply lookup_lt_Some in Hd; lia|].
  pose proof HP as HP'. rewrite Forall_lookup in HP'. pose proof (HP' _ _ Hout) as Hpo. unfold pairs_ok in Hpo.
  pose proof (HE _ _ _ Hout Hd) as ->.
  assert (HLast : Forall representable (map (output_error batch lab (fold_left fadd (map iv_value out) fzero)) out)).
  { apply Forall_map. eapply Forall_impl; [exact Hpo|]. intros p Hp. apply output_error_ok; [|done]. apply sum_ok; [|done]. by apply Forall_map. }
  destruct (lvs !! S j) as [lv'|] eqn:E1; [|done]. destruct (outs !! S (S j)) as [out'|] eqn:E2; [|done]. destruct (ds !! S j) as [d'|] eqn:E3; [|done].
  apply Forall_map. apply Forall_forall. intros p _. apply hidden_ok.
  - unfold layers_ok in HL. rewrite Forall_lookup in HL. eapply Forall_impl; [exact (HL _ _ E1)|]. by intros v (_ & ? & _).
  - assert (Hd' : Forall representable d') by (apply (IH (S j)); [lia|done]).
    apply Forall_lookup. intros k [q x] Hk. apply lookup_zip_with_Some in Hk as (q' & x' & Hq & _ & Hx). injection Hq as -> ->. rewrite Forall_lookup in Hd'. by eapply Hd'.
Qed.
Lemma last_lookup_S {A} (xs : list A) n : length xs = S n -> last xs = xs !! n.
Proof. intros H. rewrite last_lookup, H. done. Qed.
Lemma pass_ok E batch lvs sps ex p : math_ok E -> 1 <= batch -> layers_ok lvs -> pairs_ok (features ex) -> pass_of E batch lvs sps ex p ->
  pass_in_range batch (map lv_type lvs) (labels ex) p /\ Forall pairs_ok p.1.
Proof.
  intros HM HB HL HF (HI & HE & _). destruct (outputs_ok _ _ _ _ _ _ _ HM HL HF HI) as [HO HP]. split; [|done]. split; [done|].
  pose proof HI as (Hlen & _). split; [by eapply errors_ok|]. intros out d Ht Ho Hd. pose proof HE as (Hde & HEr).
  destruct lvs as [|lv0 lvs0]; [discriminate Ht|]. set (lvs := lv0 :: lvs0) in *. set (n := length lvs0) in *. cbn [length] in Hde, Hlen.
  rewrite (last_lookup_S _ n) in Ht by (rewrite map_length; done). rewrite (last_lookup_S _ (S n)) in Ho by done. rewrite (last_lookup_S _ n) in Hd by done.
  assert (HS : shares_in_range out).
  { apply shares_ok. apply Forall_forall. intros q Hq. exact (HO _ _ _ _ Ht Ho Hq). }
  split; [done|]. assert (HN : lvs !! S n = None) by (apply lookup_ge_None; cbn; lia).
  pose proof (HEr _ _ _ Ho Hd) as Hdd. rewrite HN in Hdd. subst d. intros a q x Hq Hx. rewrite list_lookup_fmap, Hq in Hx. injection Hx as <-.
  assert (Hpo : pairs_ok out) by (rewrite Forall_lookup in HP; by eapply HP).
  assert (Hqr : representable (iv_value q)) by (unfold pairs_ok in Hpo; rewrite Forall_lookup in Hpo; by eapply Hpo).
  apply error_ok; [done|done|apply sum_ok; [by apply Forall_map|done]|]. apply HS. by eapply elem_of_list_lookup_2.
Qed.

(** ** Histories *)
Lemma accumulate_ok f xs cur : (forall x, representable x -> representable (f x)) -> Forall representable xs -> pairs_ok cur -> Forall representable (accumulate f xs cur).
Proof.
  intros Hf Hxs HC. unfold accumulate. revert xs Hxs. induction HC as [|q cur Hq _ IH]; intros xs Hxs; [done|]. cbn [fold_left]. apply IH.
  apply Forall_lookup. intros i x Hi. destruct (decide (i = Z.to_nat (iv_index q))) as [->|Hne].
  - rewrite list_lookup_alter in Hi. apply fmap_Some in Hi as (y & Hy & ->). rewrite Forall_lookup in Hxs. apply fadd_representable; [by eapply Hxs|by apply Hf].
  - rewrite list_lookup_alter_ne in Hi by done. rewrite Forall_lookup in Hxs. by eapply Hxs.
Qed.
(** All numbers in a pass are binary64 numbers. *)
Definition pass_rep (p : pass) : Prop := Forall pairs_ok p.1 /\ Forall (Forall representable) p.2.
Lemma error_of_ok p j k d : pass_rep p -> error_of p j k = Some d -> representable d.
Proof.
  intros [_ HD] H. unfold error_of in H. destruct (p.1 !! S j) as [out|]; [|discriminate H]. destruct (p.2 !! j) as [ds|] eqn:E1; [|discriminate H]. cbn in H.
  destruct (list_find _ _) as [[a q]|]; [|discriminate H]. cbn in H. rewrite Forall_lookup in HD. specialize (HD _ _ E1). rewrite Forall_lookup in HD. by eapply HD.
Qed.
Lemma inputs_of_ok p j : pass_rep p -> pairs_ok (inputs_of p j).
Proof. intros [HP _]. unfold inputs_of. destruct (p.1 !! j) as [cur|] eqn:E1; cbn; [|constructor]. rewrite Forall_lookup in HP. by eapply HP. Qed.
Lemma fold_pass_ok {A} (P : A -> Prop) (g : A -> pass -> float64 -> A) ps j k a : Forall pass_rep ps -> P a ->
  (forall a p d, pass_rep p -> representable d -> P a -> P (g a p d)) ->
  P (fold_left (fun a p => match error_of p j k with Some d => g a p d | None => a end) ps a).
Proof.
  intros HP HA HG. revert a HA. induction HP as [|p ps Hp _ IH]; intros a HA; [done|]. cbn [fold_left]. apply IH.
  destruct (error_of p j k) as [d|] eqn:E1; [|done]. apply HG; [done|by eapply error_of_ok|done].
Qed.
Lemma weight_gradient_ok ps j k t : Forall pass_rep ps -> Forall representable t -> Forall representable (weight_gradient ps j k t).
Proof.
  intros HP HT. unfold weight_gradient. apply (fold_pass_ok (Forall representable) (fun t p d => accumulate (fmul d) t (inputs_of p j))); [done|done|].
  intros a p d Hp Hd Ha. apply accumulate_ok; [|done|by apply inputs_of_ok]. intros x. by apply fmul_representable.
Qed.
Lemma bias_gradient_ok ps j k t : Forall pass_rep ps -> representable t -> representable (bias_gradient ps j k t).
Proof.
  intros HP HT. unfold bias_gradient. apply (fold_pass_ok representable (fun t p d => fadd t d)); [done|done|]. intros a p d _ Hd Ha. by apply fadd_representable.
Qed.
Lemma sgd_weights_ok lr ps j k w : representable lr -> Forall pass_rep ps -> Forall representable w -> Forall representable (sgd_weights lr ps j k w).
Proof.
  intros HL HP HW. unfold sgd_weights. apply (fold_pass_ok (Forall representable) (fun w p d => accumulate (fun a => fmul lr (fmul d a)) w (inputs_of p j))); [done|done|].
  intros a p d Hp Hd Ha. apply accumulate_ok; [|done|by apply inputs_of_ok]. intros x Hx. apply fmul_representable; [done|]. by apply fmul_representable.
Qed.
Lemma sgd_bias_ok lr ps j k b : representable lr -> Forall pass_rep ps -> representable b -> representable (sgd_bias lr ps j k b).
Proof.
  intros HL HP HW. unfold sgd_bias. apply (fold_pass_ok representable (fun b p d => fadd b (if bool_decide (j = 0%nat) then fadd lr d else fmul lr d))); [done|done|].
  intros a p d _ Hd Ha. apply fadd_representable; [done|]. case_bool_decide; [by apply fadd_representable|by apply fmul_representable].
Qed.
Lemma const_ok a b : representable (fdiv (f_of_Z a) (f_of_Z b)).
Proof. apply fdiv_representable; apply f_of_Z_representable. Qed.
Lemma step_lr_ok E lr iter : math_ok E -> representable lr -> representable (learning_rate E lr iter).
Proof.
  intros [_ _ HP] HL. unfold learning_rate. destruct (e_UseAdam E); [|done]. cbv zeta.
  assert (Hi : representable (fadd (f_of_Z iter) fone)) by (apply fadd_representable; apply f_of_Z_representable).
  apply fdiv_representable; [apply fmul_representable; [done|apply fsqrt_representable]|]; apply fsub_representable; try apply f_of_Z_representable;
    apply HP; try done; apply const_ok.
Qed.
Lemma adam_ok lr t mo ve w : representable lr -> representable t -> representable mo -> representable ve -> representable w ->
  representable (adam_mom t mo) /\ representable (adam_vel t ve) /\ representable (adam_par lr (adam_mom t mo) (adam_vel t ve) w).
Proof.
  intros HL HT HM HV HW.
  assert (H1 : representable (adam_mom t mo)) by (apply fadd_representable; apply fmul_representable; try done; apply const_ok).
  assert (H2 : representable (adam_vel t ve)).
  { apply fadd_representable; apply fmul_representable; try done. apply fmul_representable; [apply const_ok|done]. }
  split; [done|]. split; [done|]. apply fadd_representable; [done|]. apply fdiv_representable.
  - apply fmul_representable; [|done]. apply fmul_representable; [apply f_of_Z_representable|done].
  - apply fadd_representable; [by apply fsqrt_representable|apply const_ok].
Qed.

(** A node with a type and representable parameters. *)
Definition node_ok (adam : bool) (ty : NodeType) (v : NodeView) : Prop :=
  v_type v = ty /\ node_representable adam v /\ (adam = true -> length (v_mom v) = length (v_w v) /\ length (v_vel v) = length (v_w v)).
Definition all_ok (E : env) (lvs : list LayerView) : Prop :=
  Forall (fun lv => Forall (node_ok (e_UseAdam E) (lv_type lv)) (lv_nodes lv)) lvs.
Lemma all_ok_layers E lvs : all_ok E lvs -> layers_ok lvs.
Proof. intros H. eapply Forall_impl; [exact H|]. intros lv Hl. eapply Forall_impl; [exact Hl|]. by intros v (Ht & (Hw & Hb & _) & _). Qed.

Lemma result_ok E lr ps j i ty v v' : representable lr -> Forall pass_rep ps -> node_ok (e_UseAdam E) ty v -> node_result E lr ps j i v v' -> node_ok (e_UseAdam E) ty v'.
Proof.
  intros HL HP (Ht & (Hw & Hb & Ha) & Hlen) [HI HR]. unfold identity in HI. injection HI as HI _ _.
  split; [congruence|]. unfold node_representable. destruct (e_UseAdam E) eqn:HE.
  - destruct (Ha eq_refl) as (Hm & Hv & Hmb & Hvb). destruct (Hlen eq_refl) as [L1 L2]. destruct HR as [(G0 & G1 & G2 & G3) HAt (B1 & B2 & B3)].
    set (t := weight_gradient ps j i (replicate (length (v_w v)) fzero)) in *. set (tb := bias_gradient ps j i fzero) in *.
    assert (Ht' : Forall representable t) by (apply weight_gradient_ok; [done|]; apply Forall_replicate; done).
    assert (Htb : representable tb) by (by apply bias_gradient_ok).
    destruct (adam_ok lr tb _ _ _ HL Htb Hmb Hvb Hb) as (AB1 & AB2 & AB3).
    assert (HX : forall q, (q < length (v_w v))%nat -> exists mo ve w, v_mom v' !! q = Some mo /\ v_vel v' !! q = Some ve /\ v_w v' !! q = Some w /\
      representable mo /\ representable ve /\ representable w).
    { intros q Hq. destruct (lookup_lt_is_Some_2 t q) as [g Hg]; [lia|]. destruct (lookup_lt_is_Some_2 (v_mom v) q) as [mo Hmo]; [lia|].
      destruct (lookup_lt_is_Some_2 (v_vel v) q) as [ve Hve]; [lia|]. destruct (lookup_lt_is_Some_2 (v_w v) q) as [w Hw']; [lia|].
      destruct (HAt _ _ _ _ _ Hg Hmo Hve Hw') as (A1 & A2 & A3). rewrite Forall_lookup in Hm, Hv, Hw, Ht'.
      destruct (adam_ok lr g mo ve w HL (Ht' _ _ Hg) (Hm _ _ Hmo) (Hv _ _ Hve) (Hw _ _ Hw')) as (R1 & R2 & R3). eauto 10. }
    split; [|intros _; split; lia]. split; [|split; [|intros _; split; [|split; [|split]]]].
    + apply Forall_lookup. intros q x Hx. destruct (HX q) as (mo & ve & w & _ & _ & E3 & _ & _ & R3); [apply lookup_lt_Some in Hx; lia|]. congruence.
    + by rewrite B3, B1, B2.
    + apply Forall_lookup. intros q x Hx. destruct (HX q) as (mo & ve & w & E1 & _ & _ & R1 & _ & _); [apply lookup_lt_Some in Hx; lia|]. congruence.
    + apply Forall_lookup. intros q x Hx. destruct (HX q) as (mo & ve & w & _ & E2 & _ & _ & R2 & _); [apply lookup_lt_Some in Hx; lia|]. congruence.
    + by rewrite B1.
    + by rewrite B2.
  - destruct HR as [-> ->]. split; [|done]. split; [by apply sgd_weights_ok|]. split; [by apply sgd_bias_ok|done].
Qed.

Lemma reshuffled_ok E iter lvs lvs1 : reshuffled iter lvs lvs1 -> all_ok E lvs -> all_ok E lvs1 /\ map lv_type lvs1 = map lv_type lvs.
Proof.
  intros [HR _]. unfold all_ok. induction HR as [|lv lv1 lvs lvs1 (r & -> & _) _ IH]; [done|]. intros [H1 H2]%Forall_cons. destruct (IH H2) as [I1 I2].
  split; [by constructor|]. cbn [map]. by rewrite I2.
Qed.
Lemma sgd_layers_ok E lr ps lvs ls : representable lr -> Forall pass_rep ps -> all_ok E lvs -> sgd_layers lr ps lvs ls -> layers_ok ls /\ map lv_type ls = map lv_type lvs.
Proof.
  intros HL HP HA [HK HN]. split.
  - apply Forall_lookup. intros j lv' Hlv'. destruct (Forall2_lookup_r _ _ _ _ _ HK Hlv') as (lv & Hlv & K). apply Forall_lookup. intros i v' Hv'.
    destruct (lookup_lt_is_Some_2 (lv_nodes lv) i) as [v Hv]; [rewrite <- (lk_nodes _ _ K); by eapply lookup_lt_Some|].
    destruct (HN _ _ _ _ _ _ Hlv Hlv' Hv Hv') as (Hw & Hb & HI). unfold identity in HI. injection HI as HI _ _.
    unfold all_ok in HA. rewrite Forall_lookup in HA. specialize (HA _ _ Hlv). rewrite Forall_lookup in HA. destruct (HA _ _ Hv) as (Ht & (Hrw & Hrb & _) & _).
    rewrite (lk_type _ _ K), HI, Hw, Hb. split; [done|]. split; [by apply sgd_weights_ok|done].
  - clear -HK. induction HK as [|lv lv' lvs ls K _ IH]; [done|]. cbn [map]. by rewrite IH, (lk_type _ _ K).
Qed.
Lemma passes_ok E batch sps lr0 iter lvs exs ps : math_ok E -> 1 <= batch -> representable lr0 -> all_ok E lvs -> values_ok exs ->
  call_passes E batch sps lr0 iter lvs exs ps ->
  Forall2 (fun ex p => pass_in_range batch (map lv_type lvs) (labels ex) p) exs ps /\ Forall pass_rep ps.
Proof.
  intros HM HB HL HA HV (lvs1 & HR & HP). destruct (reshuffled_ok _ _ _ _ HR HA) as [HA1 HT]. rewrite <- HT.
  unfold values_ok in HV. rewrite Forall_lookup in HV.
  destruct (e_UseAdam E) eqn:HE.
  - assert (HQ : forall i ex p, exs !! i = Some ex -> ps !! i = Some p -> pass_in_range batch (map lv_type lvs1) (labels ex) p /\ Forall pairs_ok p.1).
    { intros i ex p He Hp. apply pass_ok with E sps; try done; [by eapply all_ok_layers|by eapply HV|].
      destruct (Forall2_lookup_l _ _ _ _ _ HP He) as (p' & Hp' & H). congruence. }
    split.
    + apply Forall2_same_length_lookup_2; [by eapply Forall2_length|]. intros i ex p He Hp. by eapply HQ.
    + apply Forall_lookup. intros i p Hp. destruct (Forall2_lookup_r _ _ _ _ _ HP Hp) as (ex & He & _). destruct (HQ _ _ _ He Hp) as [(_ & H1 & _) H2]. done.
  - destruct HP as [Hlen HP].
    assert (HQ : forall i ex p, exs !! i = Some ex -> ps !! i = Some p -> pass_in_range batch (map lv_type lvs1) (labels ex) p /\ Forall pairs_ok p.1).
    { intros i. induction (lt_wf i) as [i _ IH]. intros ex p He Hp. destruct (HP _ _ _ He Hp) as (ls & HS & HO).
      assert (HPR : Forall pass_rep (take i ps)).
      { apply Forall_lookup. intros q p' Hq. assert (Hqi : (q < i)%nat) by (apply lookup_lt_Some in Hq; rewrite take_length in Hq; lia).
        rewrite lookup_take in Hq by done. destruct (lookup_lt_is_Some_2 exs q) as [ex' He']; [apply lookup_lt_Some in Hq; lia|].
        destruct (IH q Hqi _ _ He' Hq) as [(_ & H1 & _) H2]. done. }
      destruct (sgd_layers_ok E _ _ _ _ (step_lr_ok E lr0 iter HM HL) HPR HA1 HS) as [HLo HTl]. rewrite <- HTl.
      apply pass_ok with E sps; try done. by eapply HV. }
    split.
    + apply Forall2_same_length_lookup_2; [done|]. intros i ex p He Hp. by eapply HQ.
    + apply Forall_lookup. intros i p Hp. destruct (lookup_lt_is_Some_2 exs i) as [ex He]; [apply lookup_lt_Some in Hp; lia|].
      destruct (HQ _ _ _ He Hp) as [(_ & H1 & _) H2]. done.
Qed.
Lemma history_ok E batch sps lr0 nv os pss nv' : math_ok E -> 1 <= batch -> representable lr0 -> history E batch sps lr0 nv os pss nv' ->
  all_ok E (nv_layers nv) -> Forall op_ok os ->
  all_ok E (nv_layers nv') /\ map lv_type (nv_layers nv') = map lv_type (nv_layers nv) /\
  Forall2 (Forall2 (fun ex p => pass_in_range batch (map lv_type (nv_layers nv)) (labels ex) p)) (trained_examples os) pss.
Proof.
  intros HM HB HL HH HA. induction HH as [|os pss nv1 exs iter rehash rebuild ps nv2 HH IH HP [HR1 HR2]|os pss nv1 exs nv2 HH IH HS]; intros HO.
  - split; [done|]. split; [done|constructor].
  - apply Forall_app in HO as [HO HO1]. rewrite Forall_singleton in HO1. destruct (IH HO) as (I1 & I2 & I3).
    destruct (passes_ok _ _ _ _ _ _ _ _ HM HB HL I1 HO1 HP) as [P1 P2]. rewrite I2 in P1. split; [|split].
    + apply Forall_lookup. intros j lv' Hlv'. destruct (lookup_lt_is_Some_2 (nv_layers nv1) j) as [lv Hlv]; [rewrite <- HR1; by eapply lookup_lt_Some|].
      destruct (HR2 _ _ _ Hlv Hlv') as (Ty & Le & NR). apply Forall_lookup. intros i v' Hv'.
      destruct (lookup_lt_is_Some_2 (lv_nodes lv) i) as [v Hv]; [rewrite <- Le; by eapply lookup_lt_Some|]. rewrite Ty.
      apply (result_ok E (learning_rate E lr0 iter) ps j i _ v v'); [by apply step_lr_ok|done| |by apply NR].
      unfold all_ok in I1. rewrite Forall_lookup in I1. specialize (I1 _ _ Hlv). rewrite Forall_lookup in I1. by eapply I1.
    + rewrite <- I2. apply list_eq. intros j. rewrite !list_lookup_fmap. destruct (nv_layers nv1 !! j) as [lv|] eqn:Hlv.
      * destruct (lookup_lt_is_Some_2 (nv_layers nv2) j) as [lv' Hlv']; [rewrite HR1; by eapply lookup_lt_Some|]. rewrite Hlv'. cbn.
        destruct (HR2 _ _ _ Hlv Hlv') as [-> _]. done.
      * apply lookup_ge_None in Hlv. assert (HN : nv_layers nv2 !! j = None) by (apply lookup_ge_None; lia). by rewrite HN.
    + unfold trained_examples. rewrite omap_app. apply Forall2_app; [exact I3|]. cbn. by constructor.
  - apply Forall_app in HO as [HO HO1]. destruct (IH HO) as (I1 & I2 & I3). destruct HS as [_ HS]. split; [|split].
    + apply Forall_lookup. intros j lv' Hlv'. destruct (Forall2_lookup_r _ _ _ _ _ HS Hlv') as (lv & Hlv & K). apply Forall_lookup. intros i v' Hv'.
      destruct (Forall2_lookup_r _ _ _ _ _ (ls_nodes _ _ _ K) Hv') as (v & Hv & SB). unfold all_ok in I1. rewrite Forall_lookup in I1. specialize (I1 _ _ Hlv). rewrite Forall_lookup in I1. specialize (I1 _ _ Hv).
      rewrite (ls_type _ _ _ K). pose proof (sb_learned _ _ _ SB) as Hle. unfold learned in Hle. injection Hle as E1 E2 E3 E4 E5 E6 E7 E8 E9.
      pose proof (sb_identity _ _ _ SB) as Hid. unfold identity in Hid. injection Hid as F1 F2 F3.
      unfold node_ok, node_representable in *. rewrite E1, E2, E3, F1. first [rewrite E4 | idtac]. repeat match goal with H : _ (_ v') = _ |- _ => idtac end.
      by repeat match goal with H : _ = _ v |- _ => rewrite H end.
    + rewrite <- I2. clear -HS. induction HS as [|lv lv' lvs ls K _ IH]; [done|]. cbn [map]. by rewrite IH, (ls_type _ _ _ K).
    + unfold trained_examples. rewrite omap_app. cbn. rewrite app_nil_r. exact I3.
Qed.

Lemma norm_draw_ok norm q : (forall i, representable (norm i)) -> representable (norm_draw norm q).
Proof. intros HN. unfold norm_draw. apply fadd_representable; [|done]. apply fmul_representable; [done|apply const_ok]. Qed.
Lemma new_ok E norm pos N P ty batch : (forall i, representable (norm i)) -> Forall (node_ok (e_UseAdam E) ty) (new_nodes (e_UseAdam E) norm pos N P ty batch).
Proof.
  intros HN. unfold new_nodes. apply Forall_map, Forall_forall. intros i _. unfold new_node.
  assert (HZ : Forall representable (replicate P fzero)) by (by apply Forall_replicate).
  split; [done|]. split.
  - split; [|split]; cbn [v_w v_bias v_mom v_vel v_momBias v_velBias].
    + apply Forall_map, Forall_forall. intros q _. by apply norm_draw_ok.
    + by apply norm_draw_ok.
    + intros ->. done.
  - intros ->. cbn [v_w v_mom v_vel]. rewrite map_length, seq_length, replicate_length. done.
Qed.
Lemma net_new_ok E c num sizes types batch lr inputDim k l rp sparsity m n m' : (forall i, representable (m_norm m i)) ->
  e_LoadWeight E = false -> dims_ok E num sizes batch inputDim ->
  network_New E c num sizes types batch lr inputDim k l rp sparsity m = Ok (n, m') ->
  exists nv, live E m' c n nv /\ all_ok E (nv_layers nv).
Proof.
  intros HR HL HD HN. destruct (new_effect _ _ _ _ _ _ _ _ _ _ _ _ _ _ _ HL HD HN) as (nv & L & [_ HS] & HF). exists nv. split; [done|].
  apply Forall_lookup. intros j lv Hlv. destruct (HS _ _ Hlv) as (size & prev & ty & kj & lj & rj & H1 & H2 & H3 & _ & _ & H6 & SH).
  destruct (HF _ _ _ _ _ _ Hlv H1 H2 H3 H6) as [_ ->]. rewrite (ss_type _ _ _ _ _ _ _ _ _ SH). by apply new_ok.
Qed.

Lemma range_calls E c num sizes types batch lr inputDim k l rp sparsity m n m' os n' m'' :
  e_LoadWeight E = false -> dims_ok E num sizes batch inputDim -> 1 <= batch ->
  math_ok E -> (forall i, representable (m_norm m i)) -> representable lr -> Forall op_ok os ->
  network_New E c num sizes types batch lr inputDim k l rp sparsity m = Ok (n, m') ->
  call_ops E c n os m' = Ok (n', m'') ->
  exists nv nv' pss, live E m' c n nv /\ live E m'' c n nv' /\ history E batch sparsity lr nv os pss nv' /\
    Forall (fun lv => Forall (node_representable (e_UseAdam E)) (lv_nodes lv)) (nv_layers nv') /\
    Forall2 (Forall2 (fun ex p => pass_in_range batch (map lv_type (nv_layers nv)) (labels ex) p)) (trained_examples os) pss.
Proof.
  intros HL HD HB HM HN HR HO H1 H2. destruct (calls_history _ _ _ _ _ _ _ _ _ _ _ _ _ _ _ _ _ _ HL HD H1 H2) as (nv & nv' & pss & L & L' & HH).
  destruct (net_new_ok _ _ _ _ _ _ _ _ _ _ _ _ _ _ _ HN HL HD H1) as (nv0 & L0 & HA). rewrite (live_unique _ _ _ _ _ _ L0 L) in HA.
  destruct (history_ok _ _ _ _ _ _ _ _ HM HB HR HH HA HO) as (A1 & A2 & A3). exists nv, nv', pss. repeat (split; [done|]). split; [|done].
  eapply Forall_impl; [exact A1|]. intros lv Hl. eapply Forall_impl; [exact Hl|]. by intros v (_ & ? & _).
Qed.
Lemma range_inference E c num sizes types batch lr inputDim k l rp sparsity m n m' os n' m'' :
  e_LoadWeight E = false -> dims_ok E num sizes batch inputDim -> 1 <= batch ->
  math_ok E -> (forall i, representable (m_norm m i)) -> representable lr -> Forall op_ok os ->
  network_New E c num sizes types batch lr inputDim k l rp sparsity m = Ok (n, m') ->
  call_ops E c n os m' = Ok (n', m'') ->
  exists nv, live E m'' c n nv /\
    forall off lab feats outs, Forall (fun p => representable (iv_value p)) feats -> inference E (nv_layers nv) sparsity off lab feats outs ->
      outputs_in_range (map lv_type (nv_layers nv)) outs.
Proof.
  intros HL HD HB HM HN HR HO H1 H2. destruct (calls_history _ _ _ _ _ _ _ _ _ _ _ _ _ _ _ _ _ _ HL HD H1 H2) as (nv & nv' & pss & L & L' & HH).
  destruct (net_new_ok _ _ _ _ _ _ _ _ _ _ _ _ _ _ _ HN HL HD H1) as (nv0 & L0 & HA). rewrite (live_unique _ _ _ _ _ _ L0 L) in HA.
  destruct (history_ok _ _ _ _ _ _ _ _ HM HB HR HH HA HO) as (A1 & A2 & A3). exists nv'. split; [done|]. intros off lab feats outs HF HI.
  by eapply outputs_ok; [..|exact HI]; [|eapply all_ok_layers|].
Qed.
