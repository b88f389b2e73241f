(** Adam's second moments are never negative, its divisor is positive, and zero moments with a zero gradient do not
    move a parameter. *)
From Verif.Proofs Require Import BaseProofs FifoProofs FloatReal FloatSub NetInfer NetCalls ProgramProofs NetInvariant BatchProofs.
From Verif.Spec Require Import LayerSpec BatchSpec.
From Coq Require Import Reals Psatz.
From Flocq Require Import Core BinarySingleNaN.
Import BinarySingleNaN.
Local Notation prec := 53%Z.
Local Notation emax := 1024%Z.
Local Notation bf := (binary_float prec emax).
Local Notation fex := (SpecFloat.fexp prec emax).
Local Open Scope Z_scope.

(** ** Signs *)
Definition signed (s : bool) (x : float64) : Prop := match x with S754_zero s' | S754_infinity s' | S754_finite s' _ _ => s' = s | S754_nan => True end.
Lemma aux_signed s m e l : signed s (SpecFloat.binary_round_aux 53 1024 s m e l).
Proof.
  unfold SpecFloat.binary_round_aux. destruct (SpecFloat.shr_fexp _ _ m e l) as [r e1]. destruct (SpecFloat.shr_fexp _ _ _ e1 _) as [r2 e2].
  destruct (shr_m r2); cbn; try done. destruct (Zle_bool _ _); done.
Qed.
Lemma mul_signed x y s t : signed s x -> signed t y -> signed (xorb s t) (fmul x y).
Proof.
  unfold fmul, SFmul. destruct x as [a|a| |a m e], y as [b|b| |b m' e']; cbn [signed]; intros H H'; subst; try done. apply aux_signed.
Qed.
Lemma signed_not_negative x : signed false x -> not_negative x.
Proof. destruct x as [s|s| |s m e]; cbn [signed]; intros; subst; done. Qed.
Lemma not_negative_cases x : not_negative x -> signed false x \/ exists s, x = S754_zero s.
Proof. unfold not_negative. destruct x as [[]|[]| |[] m e]; cbn; intros H; try discriminate H; eauto. Qed.
Lemma has_sign x : exists s, signed s x.
Proof. destruct x as [s|s| |s m e]; exists s || exists true; done. Qed.
Lemma normalize_nonneg m e : 0 <= m -> signed false (SpecFloat.binary_normalize 53 1024 m e false).
Proof. destruct m; try done. intros _. unfold SpecFloat.binary_normalize, SpecFloat.binary_round. destruct (SpecFloat.shl_align _ _ _). apply aux_signed. Qed.
Lemma add_not_negative x y : not_negative x -> not_negative y -> not_negative (fadd x y).
Proof.
  intros Hx Hy. unfold not_negative in *. destruct x as [[]|[]| |[] m e], y as [[]|[]| |[] m' e']; try discriminate Hx; try discriminate Hy; try reflexivity; try done.
  apply signed_not_negative. unfold fadd, SFadd. apply normalize_nonneg. cbn [SpecFloat.cond_Zopp]. lia.
Qed.
Lemma mul_pos_not_negative c m e x : c = S754_finite false m e -> not_negative x -> not_negative (fmul c x).
Proof.
  intros -> Hx. apply not_negative_cases in Hx as [Hx|[s ->]]; [|done].
  apply signed_not_negative. apply (mul_signed _ _ false false); done.
Qed.
Lemma beta2_pos : exists m e, (dec 999 1000) = S754_finite false m e. Proof. eexists _, _. vm_compute. reflexivity. Qed.
Lemma beta2c_pos : exists m e, (dec 1 1000) = S754_finite false m e. Proof. eexists _, _. vm_compute. reflexivity. Qed.
Lemma square_not_negative t : not_negative (fmul (fmul (dec 1 1000) t) t).
Proof.
  destruct (has_sign t) as [s Hs]. destruct beta2c_pos as (m & e & ->). apply signed_not_negative.
  assert (HX : xorb (xorb false s) s = false) by (by destruct s). rewrite <- HX at 1. apply mul_signed; [|done]. by apply mul_signed.
Qed.
Lemma adam_vel_not_negative t v : not_negative v -> not_negative (adam_vel t v).
Proof. intros Hv. unfold adam_vel. destruct beta2_pos as (m & e & HB). apply add_not_negative; [by eapply mul_pos_not_negative|apply square_not_negative]. Qed.

(** ** The divisor *)
Lemma normalize_pos m e : (bpow radix2 (-27) <= F2R (Float radix2 m e))%R -> fltb fzero (SpecFloat.binary_normalize 53 1024 m e false) = true.
Proof.
  intros Hm. rewrite normalize_equiv.
  pose proof (binary_normalize_correct prec emax _ _ mode_NE m e false) as HC. revert HC. cbn zeta. case Rlt_bool_spec.
  - intros _ (HR & HF & _). match goal with |- fltb fzero (B2SF ?b) = true => change (Bltb (B754_zero false) b = true) end.
    rewrite Bltb_correct by (reflexivity || assumption). apply Rlt_bool_true. rewrite HR. cbn [B2R].
    apply Rlt_le_trans with (bpow radix2 (-27)); [apply bpow_gt_0|].
    rewrite <- (round_generic radix2 fex (round_mode mode_NE) (bpow radix2 (-27))).
    + apply round_le; [apply (fexp_correct prec emax); reflexivity|apply valid_rnd_round_mode|exact Hm].
    + apply generic_format_bpow. vm_compute. discriminate.
  - intros _ HS. rewrite HS. replace (Rlt_bool (F2R (Float radix2 m e)) 0) with false; [reflexivity|].
    symmetry. apply Rlt_bool_false. pose proof (bpow_gt_0 radix2 (-27)). lra.
Qed.
Lemma eps_val : exists m e, (dec 1 (10 ^ 8)) = S754_finite false m e /\ (bpow radix2 (-27) <= F2R (Float radix2 (Zpos m) e))%R.
Proof.
  eexists _, (-79). split; [vm_compute; reflexivity|].
  replace (bpow radix2 (-27)) with (F2R (Float radix2 (2 ^ 52) (-79))); [apply F2R_le; lia|].
  rewrite <- F2R_bpow. symmetry. rewrite (F2R_change_exp radix2 (-79) 1 (-27)) by lia. reflexivity.
Qed.
Lemma align_val m e e' : e' <= e -> F2R (Float radix2 (Zpos (fst (SpecFloat.shl_align m e e'))) e') = F2R (Float radix2 (Zpos m) e).
Proof.
  intros He. pose proof (shl_align_correct' m e e' He) as H. change (shl_align m e e') with (SpecFloat.shl_align m e e') in H.
  destruct (SpecFloat.shl_align m e e') as [m1 e1]. cbn [fst]. apply H.
Qed.
Lemma shr_1_nonneg r : 0 <= shr_m r -> 0 <= shr_m (SpecFloat.shr_1 r).
Proof. destruct r as [m a b]. destruct m as [|[p|p|]|p]; cbn; lia. Qed.
Lemma iter_nonneg p : forall r, 0 <= shr_m r -> 0 <= shr_m (SpecFloat.iter_pos SpecFloat.shr_1 p r).
Proof. induction p as [p IH|p IH|]; intros r Hr; cbn [SpecFloat.iter_pos]; [apply IH, IH, shr_1_nonneg, Hr|apply IH, IH, Hr|by apply shr_1_nonneg]. Qed.
Lemma shr_nonneg m e l r e' : 0 <= m -> SpecFloat.shr_fexp 53 1024 m e l = (r, e') -> 0 <= shr_m r.
Proof.
  intros Hm. unfold SpecFloat.shr_fexp, SpecFloat.shr.
  assert (HR : 0 <= shr_m (SpecFloat.shr_record_of_loc m l)) by (destruct l as [|[]]; done).
  destruct (SpecFloat.fexp _ _ _ - e); intros H; injection H as <- <-; try done. by apply iter_nonneg.
Qed.
Lemma aux_number s m e l : 0 <= m -> Float64.is_nan (SpecFloat.binary_round_aux 53 1024 s m e l) = false.
Proof.
  intros Hm. unfold SpecFloat.binary_round_aux. destruct (SpecFloat.shr_fexp _ _ m e l) as [r e1] eqn:E1.
  destruct (SpecFloat.shr_fexp _ _ (SpecFloat.round_nearest_even _ _) e1 _) as [r2 e2] eqn:E2. apply shr_nonneg in E1; [|done]. apply shr_nonneg in E2.
  - destruct (shr_m r2); try done. by destruct (Zle_bool _ _).
  - unfold SpecFloat.round_nearest_even. destruct (SpecFloat.loc_of_shr_record r) as [|[]]; try destruct (Z.even _); lia.
Qed.
Lemma sqrt_cases v : not_negative v -> Float64.is_nan v = false -> signed false (fsqrt v) /\ Float64.is_nan (fsqrt v) = false \/ exists s, fsqrt v = S754_zero s.
Proof.
  intros Hv Hn. unfold not_negative in Hv. destruct v as [s|[]| |[] m e]; try discriminate Hv; try discriminate Hn; eauto.
  left. unfold fsqrt, SFsqrt. destruct (SpecFloat.SFsqrt_core_binary 53 1024 (Zpos m) e) as [[q e'] l] eqn:EC. split; [apply aux_signed|]. apply aux_number.
  unfold SpecFloat.SFsqrt_core_binary in EC. match type of EC with context [Z.sqrtrem ?x] => pose proof (Z.sqrtrem_sqrt x) as HQ; destruct (Z.sqrtrem x) as [q0 r0]; cbn [fst] in HQ end.
  injection EC as <- _ _. rewrite HQ. apply Z.sqrt_nonneg.
Qed.
Lemma divisor_pos v : not_negative v -> Float64.is_nan v = false -> fltb fzero (adam_divisor v) = true.
Proof.
  intros Hv Hn. unfold adam_divisor. destruct eps_val as (me & ee & HE & HB). rewrite HE.
  destruct (sqrt_cases v Hv Hn) as [[HS HN]|[s ->]]; [|done].
  destruct (fsqrt v) as [s|s| |s m e]; cbn [signed] in HS; subst; try done.
  unfold fadd, SFadd. apply normalize_pos. cbn [SpecFloat.cond_Zopp].
  assert (HX : forall a b ex, F2R (Float radix2 (a + b) ex) = (F2R (Float radix2 a ex) + F2R (Float radix2 b ex))%R) by (intros; unfold F2R; cbn [Fnum Fexp]; rewrite plus_IZR; ring).
  rewrite HX, !align_val by lia. pose proof (F2R_gt_0 radix2 (Float radix2 (Zpos m) e) ltac:(cbn; lia)). lra.
Qed.

(** ** The invariant *)
Definition good_moments (nv : NetView) : Prop :=
  forall j lv i v, nv_layers nv !! j = Some lv -> lv_nodes lv !! i = Some v -> Forall not_negative (second_moments v).
Lemma new_moments E norm pos N P ty batch i v : new_nodes (e_UseAdam E) norm pos N P ty batch !! i = Some v -> Forall not_negative (second_moments v).
Proof.
  intros H. apply list_lookup_fmap_Some in H as (x & _ & ->). unfold new_node, second_moments. cbn. constructor; [done|].
  destruct (e_UseAdam E); [|by constructor]. by apply Forall_replicate.
Qed.
Lemma step_moments lr t tb v v' : length (v_mom v) = length (v_w v) -> length (v_vel v) = length (v_w v) -> adam_step lr t tb v v' ->
  Forall not_negative (second_moments v) -> Forall not_negative (second_moments v').
Proof.
  intros Hm Hv [(L0 & L1 & L2 & L3) AT (_ & B2 & _)] H. unfold second_moments in *. apply Forall_cons in H as [HB H]. constructor; [rewrite B2; by apply adam_vel_not_negative|].
  apply Forall_lookup. intros i x Hx. pose proof (lookup_lt_Some _ _ _ Hx) as Hi.
  destruct (lookup_lt_is_Some_2 t i) as [g Hg]; [lia|]. destruct (lookup_lt_is_Some_2 (v_mom v) i) as [mo Hmo]; [lia|].
  destruct (lookup_lt_is_Some_2 (v_vel v) i) as [ve Hve]; [lia|]. destruct (lookup_lt_is_Some_2 (v_w v) i) as [w Hw]; [lia|].
  destruct (AT _ _ _ _ _ Hg Hmo Hve Hw) as (_ & E2 & _). rewrite Hx in E2. injection E2 as ->. apply adam_vel_not_negative. by eapply (proj1 (Forall_lookup _ _) H).
Qed.
Lemma trains_moments E batch sps lr exs lvs lvs' : trains E batch sps lr exs lvs lvs' ->
  forall j lv lv' k v v', lvs !! j = Some lv -> lvs' !! j = Some lv' -> lv_nodes lv !! k = Some v -> lv_nodes lv' !! k = Some v' -> second_moments v' = second_moments v.
Proof.
  induction 1 as [lvs|exs ex lvs lvs1 lvs2 HT IH HS]; intros j lv lv' k v v' H1 H2 H3 H4; [by simplify_eq|].
  destruct (kept_nodes _ _ _ _ _ _ (trains_kept _ _ _ _ _ _ _ HT) H1 H3) as (lv1 & v1 & Hlv1 & Hv1). rewrite <- (IH _ _ _ _ _ _ H1 Hlv1 H3 Hv1).
  destruct (step_pass _ _ _ _ _ _ _ HS) as (_ & p & _ & HN). destruct (HN _ _ _ _ _ _ Hlv1 H2 Hv1 H4) as [_ Hle]. unfold learned in Hle.
  injection Hle as _ _ E3 _ _ _ _ E8 _. unfold second_moments. rewrite E3, E8. destruct (error_of p j k); [|done]. unfold gradient. by destruct (e_UseAdam E).
Qed.

Lemma moments_calls E c num sizes types batch lr inputDim k l rp sparsity m n m' os n' m'' :
  e_LoadWeight E = false -> dims_ok E num sizes batch inputDim ->
  network_New E c num sizes types batch lr inputDim k l rp sparsity m = Ok (n, m') ->
  call_ops E c n os m' = Ok (n', m'') ->
  exists nv, live E m'' c n nv /\
    forall j lv i v, nv_layers nv !! j = Some lv -> lv_nodes lv !! i = Some v ->
      Forall not_negative (second_moments v) /\
      Forall (fun x => Float64.is_nan x = false -> fltb fzero (adam_divisor x) = true) (second_moments v).
Proof.
  intros HL HD HN HO.
  destruct (net_invariant E c num sizes types batch lr inputDim k l rp sparsity good_moments) with (m := m) (n := n) (m' := m') (os := os) (n' := n') (m'' := m'')
    as (nv & L & _ & _ & HP); try done.
  - intros norm pos nv [_ HS] HF j lv i v Hlv Hv. destruct (HS _ _ Hlv) as (size & prev & ty & kj & lj & rj & A1 & A2 & A3 & _ & _ & A4 & _).
    destruct (HF _ _ _ _ _ _ Hlv A1 A2 A3 A4) as [_ HNN]. rewrite HNN in Hv. by eapply new_moments.
  - intros exs iter rehash rebuild nv nv' HS HZ HP HT _ j lv' i v' Hlv' Hv'.
    assert (HB : exists lv v, nv_layers nv !! j = Some lv /\ lv_nodes lv !! i = Some v).
    { destruct HT as (lvs1 & lvs2 & [HR _] & HT & Hlen & HU). pose proof (trains_kept _ _ _ _ _ _ _ HT) as HK.
      destruct (lookup_lt_is_Some_2 lvs2 j) as [lv2 Hlv2]; [rewrite <- Hlen; by eapply lookup_lt_Some|]. destruct (HU _ _ _ Hlv2 Hlv') as (sp & _ & HLU).
      destruct (Forall2_lookup_r _ _ _ _ _ (lu_nodes _ _ _ _ _ _ _ HLU) Hv') as (v2 & Hv2 & _). destruct (Forall2_lookup_r _ _ _ _ _ HK Hlv2) as (lv1 & Hlv1 & K).
      destruct (Forall2_lookup_r _ _ _ _ _ HR Hlv1) as (lv & Hlv & (r & -> & _)). exists lv.
      destruct (lookup_lt_is_Some_2 (lv_nodes lv) i) as [v Hv]; [|eauto]. apply lookup_lt_Some in Hv2. rewrite (lk_nodes _ _ K) in Hv2. exact Hv2. }
    destruct HB as (lv & v & Hlv & Hv). specialize (HP _ _ _ _ Hlv Hv). destruct (e_UseAdam E) eqn:HE.
    + rewrite <- HE in HZ. destruct (batch_call _ _ _ _ _ _ _ _ _ _ _ _ _ _ _ _ _ HE HS HZ HT) as (lvs & ps & _ & _ & HST).
      destruct (HST _ _ _ _ _ _ Hlv Hlv' Hv Hv') as [_ ST]. destruct HS as [_ HS].
      destruct (HS _ _ Hlv) as (size & prev & ty & kj & lj & rj & _ & _ & _ & _ & _ & _ & SH). pose proof (ss_nodes _ _ _ _ _ _ _ _ _ SH _ _ Hv) as NS.
      destruct (sh_adam _ _ _ _ _ _ NS) as (A1 & A2 & A3). rewrite HE in A1, A2, A3. pose proof (sh_w _ _ _ _ _ _ NS) as AW.
      eapply step_moments; [| |exact ST|exact HP]; congruence.
    + destruct HT as (lvs1 & lvs2 & [HR _] & HT & Hlen & HU).
      destruct (Forall2_lookup_l _ _ _ _ _ HR Hlv) as (lv1 & Hlv1 & (r & Hr & _)).
      assert (Hv1 : lv_nodes lv1 !! i = Some v) by (rewrite Hr; exact Hv).
      destruct (kept_nodes _ _ _ _ _ _ (trains_kept _ _ _ _ _ _ _ HT) Hlv1 Hv1) as (lv2 & v2 & Hlv2 & Hv2).
      pose proof (trains_moments _ _ _ _ _ _ _ HT _ _ _ _ _ _ Hlv1 Hlv2 Hv1 Hv2) as HM.
      destruct (HU _ _ _ Hlv2 Hlv') as (sp & _ & HLU). pose proof (Forall2_lookup_lr _ _ _ _ _ _ (lu_nodes _ _ _ _ _ _ _ HLU) Hv2 Hv') as HUv.
      rewrite HE in HUv. cbn [updated] in HUv. rewrite HUv. change (Forall not_negative (second_moments v2)). by rewrite HM.
  - intros I nv nv' HP [_ HS] j lv' i v' Hlv' Hv'. destruct (Forall2_lookup_r _ _ _ _ _ HS Hlv') as (lv & Hlv & K).
    destruct (Forall2_lookup_r _ _ _ _ _ (ls_nodes _ _ _ K) Hv') as (v & Hv & SB). specialize (HP _ _ _ _ Hlv Hv).
    pose proof (sb_learned _ _ _ SB) as Hle. unfold learned in Hle. injection Hle as _ _ E3 _ _ _ _ E8 _. unfold second_moments. by rewrite E3, E8.
  - exists nv. split; [done|]. intros j lv i v Hlv Hv. pose proof (HP _ _ _ _ Hlv Hv) as HM. split; [done|].
    eapply Forall_impl; [exact HM|]. intros x Hx Hn. by apply divisor_pos.
Qed.

(** ** Zero moments and a zero gradient *)
Lemma zero_moments : adam_mom fzero fzero = fzero /\ adam_vel fzero fzero = fzero.
Proof. split; vm_compute; reflexivity. Qed.
Lemma fone_B : exists o : bf, fone = B2SF o /\ B2R o = 1%R /\ is_finite o = true.
Proof. exists (BofZ 1). split; [apply f_of_Z_B|]. apply (BofZ_exact 1). lia. Qed.
Lemma lr_finite lr : finite_number lr -> exists s, fmul (fmul fone lr) fzero = S754_zero s.
Proof.
  intros [HR HF]. apply representable_B in HR as [b ->]. destruct fone_B as (o & -> & H1 & F1). rewrite fmul_B.
  assert (Fb : is_finite b = true) by (destruct b; done).
  pose proof (Bmult_correct prec emax _ _ mode_NE o b) as HC. rewrite H1, Rmult_1_l in HC.
  rewrite (round_generic radix2 fex (round_mode mode_NE)) in HC by apply generic_format_B2R.
  rewrite Rlt_bool_true in HC by apply abs_B2R_lt_emax. destruct HC as (_ & HFM & _). rewrite F1, Fb in HFM.
  destruct (Bmult mode_NE o b) as [s|s| |s m e H]; try discriminate HFM; cbn; eauto.
Qed.
Lemma adam_par_zero lr w : finite_number lr -> same_number w (adam_par lr (adam_mom fzero fzero) (adam_vel fzero fzero) w).
Proof.
  intros HL. destruct zero_moments as [-> ->]. unfold adam_par. destruct (lr_finite lr HL) as (s & ->).
  assert (HD : fdiv (S754_zero s) (fadd (fsqrt fzero) (dec 1 (10 ^ 8))) = S754_zero s) by (destruct s; vm_compute; reflexivity). rewrite HD.
  destruct w as [a|a| |a m e]; [|left; done..]. right. unfold fadd, SFadd. destruct (Bool.eqb a s); eauto.
Qed.
Lemma step_untouched lr ps j k q v v' mo w : finite_number lr ->
  adam_step lr (weight_gradient ps j k (replicate (length (v_w v)) fzero)) (bias_gradient ps j k fzero) v v' ->
  ~ touched ps j k q -> v_mom v !! q = Some fzero -> v_vel v !! q = Some fzero -> v_w v !! q = Some w -> mo = fzero ->
  v_mom v' !! q = Some fzero /\ v_vel v' !! q = Some fzero /\ exists w', v_w v' !! q = Some w' /\ same_number w w'.
Proof.
  intros HL [_ AT _] HT Hm Hv Hw ->. assert (Hg : weight_gradient ps j k (replicate (length (v_w v)) fzero) !! q = Some fzero).
  { rewrite gradient_untouched by done. apply lookup_replicate_2. by eapply lookup_lt_Some. }
  destruct (AT _ _ _ _ _ Hg Hm Hv Hw) as (A1 & A2 & A3). pose proof (adam_par_zero lr w HL) as HS. destruct zero_moments as [HM HV]. rewrite HM in A1. rewrite HV in A2. eauto.
Qed.

(** ** Histories *)
Lemma call_history E num sizes types batch inputDim k l rp sparsity lr exs iter rehash rebuild nv lvs' :
  net_shape E num sizes types batch inputDim k l rp nv ->
  Forall (fun lv => Forall (settled (e_UseAdam E)) (lv_nodes lv)) (nv_layers nv) ->
  training_call E batch sparsity lr exs iter rehash rebuild (nv_layers nv) lvs' ->
  exists ps, call_passes E batch sparsity lr iter (nv_layers nv) exs ps /\ call_result E (learning_rate E lr iter) ps (nv_layers nv) lvs'.
Proof.
  intros HS HZ HT. assert (HLEN : length lvs' = length (nv_layers nv) /\ forall j lv lv', nv_layers nv !! j = Some lv -> lvs' !! j = Some lv' ->
    lv_type lv' = lv_type lv /\ length (lv_nodes lv') = length (lv_nodes lv)).
  { destruct HT as (lvs1 & lvs2 & [HR _] & HT & Hlen & HU). pose proof (trains_kept _ _ _ _ _ _ _ HT) as HK.
    split; [rewrite Hlen, <- (Forall2_length _ _ _ HK), <- (Forall2_length _ _ _ HR); done|]. intros j lv lv' Hlv Hlv'.
    destruct (Forall2_lookup_l _ _ _ _ _ HR Hlv) as (lv1 & Hlv1 & (r & Hr & _)). destruct (Forall2_lookup_l _ _ _ _ _ HK Hlv1) as (lv2 & Hlv2 & K).
    destruct (HU _ _ _ Hlv2 Hlv') as (sp & _ & HLU).
    split; [rewrite (lu_type _ _ _ _ _ _ _ HLU), (lk_type _ _ K), Hr; done|]. rewrite <- (Forall2_length _ _ _ (lu_nodes _ _ _ _ _ _ _ HLU)), (lk_nodes _ _ K), Hr. done. }
  destruct HLEN as [HL1 HL2]. destruct (e_UseAdam E) eqn:HE.
  - rewrite <- HE in HZ. destruct (batch_call _ _ _ _ _ _ _ _ _ _ _ _ _ _ _ _ _ HE HS HZ HT) as (lvs & ps & HR & HP & HST).
    exists ps. split; [exists lvs; rewrite HE; done|]. split; [done|]. intros j lv lv' Hlv Hlv'. destruct (HL2 j lv lv' Hlv Hlv') as [HTy HLe]. split; [done|]. split; [done|]. intros i v v' Hv Hv'.
    unfold node_result. rewrite HE. by apply (HST j lv lv').
  - rewrite <- HE in HZ. destruct (sgd_call _ _ _ _ _ _ _ _ _ _ HE HZ HT) as (lvs & ps & HR & HP & HST).
    exists ps. split; [exists lvs; rewrite HE; done|]. split; [done|]. intros j lv lv' Hlv Hlv'. destruct (HL2 j lv lv' Hlv Hlv') as [HTy HLe]. split; [done|]. split; [done|]. intros i v v' Hv Hv'.
    unfold node_result. rewrite HE. by apply (HST j lv lv').
Qed.
Lemma calls_history E c num sizes types batch lr inputDim k l rp sparsity m n m' os n' m'' :
  e_LoadWeight E = false -> dims_ok E num sizes batch inputDim ->
  network_New E c num sizes types batch lr inputDim k l rp sparsity m = Ok (n, m') ->
  call_ops E c n os m' = Ok (n', m'') ->
  exists nv nv' pss, live E m' c n nv /\ live E m'' c n nv' /\ history E batch sparsity lr nv os pss nv'.
Proof.
  intros HL HD HN. revert n' m''. induction os as [|o os IH] using rev_ind; intros n' m'' HO.
  - injection HO as <- <-. destruct (shape_calls E c num sizes types batch lr inputDim k l rp sparsity m n m' [] n m' HL HD HN eq_refl) as (_ & nv & L & _ & _).
    exists nv, nv, []. split; [done|]. split; [done|]. constructor.
  - pose proof HO as HO'. rewrite calls_app in HO.
    destruct (call_ops E c n os m') as [[n1 m1]|] eqn:E1; [|discriminate HO].
    destruct (IH _ _ eq_refl) as (nv & nv1 & pss & L & L1 & HH). clear IH.
    destruct (shape_calls _ _ _ _ _ _ _ _ _ _ _ _ _ _ _ _ _ _ HL HD HN E1) as (-> & nv1' & L1' & HS1 & HZ1).
    rewrite <- (live_unique _ _ _ _ _ _ L1 L1') in HS1, HZ1. clear nv1' L1'.
    destruct (shape_calls _ _ _ _ _ _ _ _ _ _ _ _ _ _ _ _ _ _ HL HD HN HO') as (-> & nv2 & L2 & _ & _).
    unfold call_ops in HO. cbn [mfold] in HO. apply bindM_inv in HO as (n2 & m2 & HO & HR). injection HR as -> ->.
    destruct o as [exs iter rehash rebuild|exs]; cbn [call_op] in HO; apply bindM_inv in HO as ([cnt n3] & m3 & HO & HR); injection HR as -> ->.
    + destruct (training_done _ _ _ _ _ _ _ _ _ _ _ _ _ _ _ _ _ _ _ _ _ _ _ _ _ HL HD HN E1 HO) as (_ & nva & nvb & La & Lb & HT & _).
      rewrite <- (live_unique _ _ _ _ _ _ L1 La), <- (live_unique _ _ _ _ _ _ L2 Lb) in HT.
      destruct (call_history _ _ _ _ _ _ _ _ _ _ _ _ _ _ _ _ _ HS1 HZ1 HT) as (ps & HP & HR). exists nv, nv2, (pss ++ [ps]).
      split; [done|]. split; [done|]. by eapply hist_train.
    + destruct (predict_unchanged _ _ _ _ _ _ _ _ _ L1 HO) as (_ & nva & La & HS). rewrite <- (live_unique _ _ _ _ _ _ L2 La) in HS.
      exists nv, nv2, pss. split; [done|]. split; [done|]. by eapply hist_predict.
Qed.

Lemma same_number_trans x y z : same_number x y -> same_number y z -> same_number x z.
Proof. unfold same_number. intros [H1|(a & b & H1 & H2)] [H3|(a' & b' & H3 & H4)]; subst; eauto 10. Qed.
Definition kept_weight (E : env) (q : nat) (w : float64) (v' : NodeView) : Prop :=
  exists w', v_w v' !! q = Some w' /\ if e_UseAdam E then same_number w w' /\ v_mom v' !! q = Some fzero /\ v_vel v' !! q = Some fzero else w' = w.
Lemma result_untouched E lr ps j i q w v v' : (e_UseAdam E = true -> finite_number lr) -> node_result E lr ps j i v v' -> ~ touched ps j i q -> kept_weight E q w v -> kept_weight E q w v'.
Proof.
  unfold node_result, kept_weight. intros HL [_ HR] HT (w1 & Hw & HK). destruct (e_UseAdam E).
  - destruct HK as (S1 & Hm & Hv). destruct (step_untouched _ _ _ _ _ _ _ fzero _ (HL eq_refl) HR HT Hm Hv Hw eq_refl) as (A1 & A2 & w2 & A3 & A4).
    exists w2. split; [done|]. split; [by eapply same_number_trans|done].
  - subst w1. exists w. split; [|done]. destruct HR as [-> _]. by rewrite sgd_untouched.
Qed.
Lemma history_untouched E batch sps lr0 nv os pss nv' : history E batch sps lr0 nv os pss nv' -> (e_UseAdam E = true -> Forall (rate_ok E lr0) os) ->
  length (nv_layers nv') = length (nv_layers nv) /\
  forall j lv lv', nv_layers nv !! j = Some lv -> nv_layers nv' !! j = Some lv' -> length (lv_nodes lv') = length (lv_nodes lv) /\
    forall i v v' q w, lv_nodes lv !! i = Some v -> lv_nodes lv' !! i = Some v' -> ~ touched (concat pss) j i q -> kept_weight E q w v -> kept_weight E q w v'.
Proof.
  induction 1 as [|os pss nv1 exs iter rehash rebuild ps nv2 HH IH HP [HR1 HR2]|os pss nv1 exs nv2 HH IH HS]; intros HF.
  - split; [done|]. intros j lv lv' H1 H2. simplify_eq. split; [done|]. intros. by simplify_eq.
  - destruct IH as [L IH]. { intros HE. specialize (HF HE). apply Forall_app in HF as [HF _]. done. }
    split; [lia|]. intros j lv lv' Hlv Hlv'. destruct (lookup_lt_is_Some_2 (nv_layers nv1) j) as [lv1 Hlv1]; [rewrite L; by eapply lookup_lt_Some|].
    destruct (IH _ _ _ Hlv Hlv1) as [N1 I1]. destruct (HR2 _ _ _ Hlv1 Hlv') as (_ & N2 & I2). split; [lia|]. intros i v v' q w Hv Hv' HT HK.
    destruct (lookup_lt_is_Some_2 (lv_nodes lv1) i) as [v1 Hv1]; [rewrite N1; by eapply lookup_lt_Some|].
    rewrite concat_app in HT. cbn [concat] in HT. rewrite app_nil_r in HT.
    apply (result_untouched E (learning_rate E lr0 iter) ps j i q w v1 v').
    + intros HE. specialize (HF HE). apply Forall_app in HF as [_ HF]. rewrite Forall_singleton in HF. exact HF.
    + by apply I2.
    + intros (p & H1 & H2). apply HT. exists p. split; [apply elem_of_app; by right|done].
    + apply (I1 i v v1 q w); try done. intros (p & H1 & H2). apply HT. exists p. split; [apply elem_of_app; by left|done].
  - destruct IH as [L IH]. { intros HE. specialize (HF HE). apply Forall_app in HF as [HF _]. done. }
    destruct HS as [_ HS]. split; [rewrite <- L; symmetry; exact (Forall2_length _ _ _ HS)|]. intros j lv lv' Hlv Hlv'.
    destruct (Forall2_lookup_r _ _ _ _ _ HS Hlv') as (lv1 & Hlv1 & K). destruct (IH _ _ _ Hlv Hlv1) as [N1 I1]. pose proof (ls_nodes _ _ _ K) as KN.
    split; [rewrite <- N1; symmetry; exact (Forall2_length _ _ _ KN)|]. intros i v v' q w Hv Hv' HT HK.
    destruct (Forall2_lookup_r _ _ _ _ _ KN Hv') as (v1 & Hv1 & SB). pose proof (I1 i v v1 q w Hv Hv1 HT HK) as HK1.
    pose proof (sb_learned _ _ _ SB) as Hle. unfold learned in Hle. injection Hle as E1 E2 E3 _ _ _ _ _ _. unfold kept_weight. by rewrite E1, E2, E3.
Qed.

Lemma untouched_kept E c num sizes types batch lr inputDim k l rp sparsity m n m' os n' m'' :
  e_LoadWeight E = false -> dims_ok E num sizes batch inputDim ->
  (e_UseAdam E = true -> Forall (rate_ok E lr) os) ->
  network_New E c num sizes types batch lr inputDim k l rp sparsity m = Ok (n, m') ->
  call_ops E c n os m' = Ok (n', m'') ->
  exists nv nv' pss, live E m' c n nv /\ live E m'' c n nv' /\ history E batch sparsity lr nv os pss nv' /\
    forall j lv lv' i v v' q w, nv_layers nv !! j = Some lv -> nv_layers nv' !! j = Some lv' ->
      lv_nodes lv !! i = Some v -> lv_nodes lv' !! i = Some v' -> v_w v !! q = Some w -> ~ touched (concat pss) j i q ->
      exists w', v_w v' !! q = Some w' /\ if e_UseAdam E then same_number w w' else w' = w.
Proof.
  intros HL HD HF HN HO. destruct (calls_history _ _ _ _ _ _ _ _ _ _ _ _ _ _ _ _ _ _ HL HD HN HO) as (nv & nv' & pss & L & L' & HH).
  exists nv, nv', pss. split; [done|]. split; [done|]. split; [done|]. destruct (history_untouched _ _ _ _ _ _ _ _ HH HF) as [_ HU].
  intros j lv lv' i v v' q w Hlv Hlv' Hv Hv' Hw HT. destruct (HU _ _ _ Hlv Hlv') as [_ HU'].
  destruct (HU' i v v' q w Hv Hv' HT) as (w' & Hw' & HK').
  - exists w. split; [done|]. destruct (e_UseAdam E) eqn:HE; [|done]. split; [by left|].
    destruct (new_effect _ _ _ _ _ _ _ _ _ _ _ _ _ _ _ HL HD HN) as (nv0 & L0 & [_ HS] & HNEW). rewrite (live_unique _ _ _ _ _ _ L0 L) in HS, HNEW.
    destruct (HS _ _ Hlv) as (size & prev & ty & kj & lj & rj & A1 & A2 & A3 & _ & _ & A4 & _).
    destruct (HNEW _ _ _ _ _ _ Hlv A1 A2 A3 A4) as [_ HNN]. rewrite HNN, HE in Hv. apply list_lookup_fmap_Some in Hv as (x & _ & ->). cbn in *.
    assert (q < Z.to_nat prev)%nat. { apply lookup_lt_Some in Hw. by rewrite map_length, seq_length in Hw. }
    split; by apply lookup_replicate_2.
  - exists w'. split; [done|]. revert HK'. destruct (e_UseAdam E); [by intros [? _]|done].
Qed.

Lemma history_inputs E batch sps lr0 nv os pss nv' : history E batch sps lr0 nv os pss nv' ->
  forall p, p ∈ concat pss -> exists exs iter rehash rebuild ex, OpTrain exs iter rehash rebuild ∈ os /\ ex ∈ exs /\ inputs_of p 0 = features ex.
Proof.
  induction 1 as [|os pss nv1 exs iter rehash rebuild ps nv2 HH IH (lvs1 & _ & HP) _|os pss nv1 exs nv2 HH IH HS]; intros p Hp.
  - by apply elem_of_nil in Hp.
  - rewrite concat_app in Hp. cbn [concat] in Hp. rewrite app_nil_r in Hp. apply elem_of_app in Hp as [Hp|Hp].
    + destruct (IH p Hp) as (exs' & it & rh & rb & ex & H1 & H2 & H3). exists exs', it, rh, rb, ex. split; [apply elem_of_app; by left|done].
    + assert (HX : exists ex lvs, ex ∈ exs /\ pass_of E batch lvs sps ex p).
      { apply elem_of_list_lookup in Hp as [i Hp]. destruct (e_UseAdam E).
        - destruct (Forall2_lookup_r _ _ _ _ _ HP Hp) as (ex & Hex & HPo). exists ex, lvs1. split; [by eapply elem_of_list_lookup_2|done].
        - destruct HP as [HL HP]. destruct (lookup_lt_is_Some_2 exs i) as [ex Hex]; [rewrite <- HL; by eapply lookup_lt_Some|].
          destruct (HP _ _ _ Hex Hp) as (ls & _ & HPo). exists ex, ls. split; [by eapply elem_of_list_lookup_2|done]. }
      destruct HX as (ex & lvs & Hex & ((_ & H0 & _) & _)). exists exs, iter, rehash, rebuild, ex. split; [apply elem_of_app; right; by left|]. split; [done|].
      unfold inputs_of. by rewrite H0.
  - destruct (IH p Hp) as (exs' & it & rh & rb & ex & H1 & H2 & H3). exists exs', it, rh, rb, ex. split; [apply elem_of_app; by left|done].
Qed.

Lemma unseen_feature E c num sizes types batch lr inputDim k l rp sparsity m n m' os n' m'' (q : nat) :
  e_LoadWeight E = false -> dims_ok E num sizes batch inputDim ->
  (e_UseAdam E = true -> Forall (rate_ok E lr) os) ->
  Forall (unseen_in q) os ->
  network_New E c num sizes types batch lr inputDim k l rp sparsity m = Ok (n, m') ->
  call_ops E c n os m' = Ok (n', m'') ->
  exists nv nv', live E m' c n nv /\ live E m'' c n nv' /\
    forall lv lv' i v v' w, nv_layers nv !! 0%nat = Some lv -> nv_layers nv' !! 0%nat = Some lv' ->
      lv_nodes lv !! i = Some v -> lv_nodes lv' !! i = Some v' -> v_w v !! q = Some w ->
      exists w', v_w v' !! q = Some w' /\ if e_UseAdam E then same_number w w' else w' = w.
Proof.
  intros HL HD HF HQ HN HO. destruct (untouched_kept _ _ _ _ _ _ _ _ _ _ _ _ _ _ _ _ _ _ HL HD HF HN HO) as (nv & nv' & pss & L & L' & HH & HU).
  exists nv, nv'. split; [done|]. split; [done|]. intros lv lv' i v v' w Hlv Hlv' Hv Hv' Hw. apply (HU 0%nat lv lv' i v v' q w); try done.
  intros (p & Hp & _ & Hq). destruct (history_inputs _ _ _ _ _ _ _ _ HH p Hp) as (exs & it & rh & rb & ex & Ho & Hex & Hin). rewrite Hin in Hq.
  rewrite Forall_forall in HQ. specialize (HQ _ Ho). cbn [unseen_in] in HQ. rewrite Forall_forall in HQ. specialize (HQ _ Hex). rewrite Forall_forall in HQ.
  apply elem_of_list_fmap in Hq as (x & Hx & Hxin). specialize (HQ _ Hxin). lia.
Qed.
