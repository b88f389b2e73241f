(** Bounds along a training with Adam. *)
From Verif.Spec Require Import BoundSpec LayerSpec.
From Verif.Proofs Require Import FloatReal FloatSub FloatRange BaseProofs RoundProofs NetInfer NetCalls AdamProofs BatchProofs BoundFloat BoundPass RangeProofs.
From Coq Require Import Reals Psatz.
From Flocq Require Import Core.
Local Open Scope R_scope.
Local Notation u := u_round.

Lemma gbig_pow : gbig = 2 ^ 500.
Proof. unfold gbig. change 500%Z with (Z.of_nat (Z.to_nat 500)). rewrite bpow_powerRZ, <- pow_powerRZ. reflexivity. Qed.
Lemma tiny_pow : bpow radix2 (-1000) = / 2 ^ 1000.
Proof. change (-1000)%Z with (- (1000))%Z. rewrite bpow_opp. f_equal. exact lim_pow. Qed.

(** A node of type [ty] with parameters of at most [B] and moments that are in step. *)
Definition node_b (B : R) (ty : NodeType) (v : NodeView) : Prop :=
  v_type v = ty /\ Forall (at_most B) (v_w v) /\ at_most B (v_bias v) /\ Forall2 moments_ok (v_mom v) (v_vel v) /\
  moments_ok (v_momBias v) (v_velBias v) /\ length (v_mom v) = length (v_w v).
(** No parameter moved further than Adam's step. *)
Definition moved (lr : float64) (v v' : NodeView) : Prop :=
  Forall2 (fun w w' => Rabs (val w' - val w) <= 8 * val lr + u * Rabs (val w)) (v_w v) (v_w v') /\
  Rabs (val (v_bias v') - val (v_bias v)) <= 8 * val lr + u * Rabs (val (v_bias v)).

Lemma par_within lr m v w b b' : at_most 1 lr -> / 2 ^ 1000 <= val lr -> moments_ok m v -> at_most b w -> b <= lim -> (1 + u) * b + 8 <= b' ->
  at_most b' (adam_par lr m v w) /\ Rabs (val (adam_par lr m v w) - val w) <= 8 * val lr + u * Rabs (val w).
Proof.
  intros HL HT HM Hw Hb Hb'. rewrite <- tiny_pow in HT. destruct (par_step lr m v w b HL HT HM Hw Hb) as [F S]. split; [|done]. split; [done|].
  destruct Hw as [_ Bw]. destruct HL as [_ HL]. pose proof (Rabs_triang (val (adam_par lr m v w) - val w) (val w)) as T.
  replace (val (adam_par lr m v w) - val w + val w) with (val (adam_par lr m v w)) in T by ring.
  pose proof (Rle_abs (val lr)). pose proof u_pos. assert (u * Rabs (val w) <= u * b) by (apply Rmult_le_compat_l; lra). lra.
Qed.
Lemma adam_within lr t tb B B' ty v v' : at_most 1 lr -> / 2 ^ 1000 <= val lr -> Forall (at_most gbig) t -> at_most gbig tb -> B <= lim -> (1 + u) * B + 8 <= B' ->
  node_b B ty v -> identity v' = identity v -> adam_step lr t tb v v' -> node_b B' ty v' /\ moved lr v v'.
Proof.
  intros HL HT Ht Htb HB HB' (Ty & Hw & Hb & Hm & Hmb & Hlen) HI [(G0 & G1 & G2 & G3) HAt (B1 & B2 & B3)].
  unfold identity in HI. injection HI as HI _ _. pose proof (Forall2_length _ _ _ Hm) as Hlen2.
  assert (HX : forall q, (q < length (v_w v))%nat -> exists mo ve w w', v_mom v' !! q = Some mo /\ v_vel v' !! q = Some ve /\ v_w v' !! q = Some w' /\ v_w v !! q = Some w /\
    moments_ok mo ve /\ at_most B' w' /\ Rabs (val w' - val w) <= 8 * val lr + u * Rabs (val w)).
  { intros q Hq. destruct (lookup_lt_is_Some_2 t q) as [g Hg]; [lia|]. destruct (lookup_lt_is_Some_2 (v_mom v) q) as [mo Hmo]; [lia|].
    destruct (lookup_lt_is_Some_2 (v_vel v) q) as [ve Hve]; [lia|]. destruct (lookup_lt_is_Some_2 (v_w v) q) as [w Hw']; [lia|].
    destruct (HAt _ _ _ _ _ Hg Hmo Hve Hw') as (A1 & A2 & A3). rewrite Forall_lookup in Hw, Ht.
    pose proof (Forall2_lookup_lr _ _ _ _ _ _ Hm Hmo Hve) as HM. pose proof (moments_step g mo ve (Ht _ _ Hg) HM) as HM'.
    destruct (par_within lr _ _ w B B' HL HT HM' (Hw _ _ Hw') HB HB') as [P1 P2]. eauto 15. }
  pose proof (moments_step tb _ _ Htb Hmb) as HMB. destruct (par_within lr _ _ (v_bias v) B B' HL HT HMB Hb HB HB') as [P1 P2]. rewrite <- B1, <- B2, <- B3 in P1, P2. rewrite <- B1, <- B2 in HMB.
  split; [|split; [|done]].
  - split; [congruence|]. split; [|split; [done|]; split; [|split; [done|congruence]]].
    + apply Forall_lookup. intros q x Hx. destruct (HX q) as (mo & ve & w & w' & _ & _ & E3 & _ & _ & R3 & _); [apply lookup_lt_Some in Hx; lia|]. congruence.
    + apply Forall2_same_length_lookup_2; [congruence|]. intros q x y Hx Hy. destruct (HX q) as (mo & ve & w & w' & E1 & E2 & _ & _ & R1 & _); [apply lookup_lt_Some in Hx; lia|]. congruence.
  - apply Forall2_same_length_lookup_2; [done|]. intros q x y Hx Hy. destruct (HX q) as (mo & ve & w & w' & _ & _ & E3 & E4 & _ & _ & R); [apply lookup_lt_Some in Hx; lia|]. congruence.
Qed.

Section Bound.
  Variables (E : env) (batch : Z) (sps : list float64) (lr0 : float64) (width examples num calls : nat) (w0 X : R).
  Hypotheses (HAd : e_UseAdam E = true) (HB : (1 <= batch)%Z) (HE : exp_ok E) (W0 : 1 <= w0) (X1 : 1 <= X) (N1 : (1 <= width)%nat) (M1 : (1 <= examples)%nat)
    (HWM : (Z.of_nat (width * examples) <= 2 ^ 50)%Z) (HC : (Z.of_nat calls <= 2 ^ 50)%Z) (Hnum : (1 <= num)%nat)
    (HG : 4 * INR examples * INR width * X * growth width w0 calls ^ num <= 2 ^ 500).
  Local Notation W := (weight_bound w0 calls).
  Local Notation G := (growth width w0 calls).
  Definition bw (k : nat) : R := (w0 + 8 * INR k) * (1 + u) ^ k.
  Lemma bw_step k : (1 + u) * bw k + 8 <= bw (S k).
  Proof.
    unfold bw. rewrite S_INR. cbn [Rpow_def.pow]. pose proof u_pos. pose proof (pow_ge k).
    replace ((w0 + 8 * (INR k + 1)) * ((1 + u) * (1 + u) ^ k)) with ((1 + u) * ((w0 + 8 * INR k) * (1 + u) ^ k) + 8 * ((1 + u) * (1 + u) ^ k)) by ring.
    assert (1 * 1 <= (1 + u) * (1 + u) ^ k) by (apply Rmult_le_compat; lra). lra.
  Qed.
  Lemma bw_bound k : (k <= calls)%nat -> bw k <= W.
  Proof using W0 HC.
    intros Hk. unfold bw, weight_bound. assert (Hk2 : (Z.of_nat k <= 2 ^ 51)%Z) by (clear -Hk HC; lia). pose proof (pow_small k Hk2). pose proof (pow_ge k). pose proof (pos_INR k). apply le_INR in Hk.
    apply Rle_trans with ((w0 + 8 * INR k) * (4 / 3)); [apply Rmult_le_compat_l; lra|lra].
  Qed.
  Lemma W1 : 1 <= W. Proof. unfold weight_bound. pose proof (pos_INR calls). lra. Qed.
  Lemma G1 : 1 <= G /\ W <= G.
  Proof. unfold growth. pose proof W1. assert (1 <= INR width) by (apply (le_INR 1); done). split; nra. Qed.
  Lemma big : X * G ^ num <= gbig /\ 1 <= G ^ num.
  Proof.
    rewrite gbig_pow. destruct G1 as [G1 _]. assert (P : 1 <= G ^ num) by (by apply pow_R1_Rle). split; [|done].
    assert (A1 : 1 <= INR width) by (apply (le_INR 1); done). assert (A2 : 1 <= INR examples) by (apply (le_INR 1); done).
    eapply Rle_trans; [|exact HG]. assert (1 <= X * G ^ num) by nra. assert (1 <= 4 * INR examples * INR width) by nra.
    replace (4 * INR examples * INR width * X * G ^ num) with (4 * INR examples * INR width * (X * G ^ num)) by ring. nra.
  Qed.
  Lemma gbig_lim1 : gbig + gbig <= lim. Proof. rewrite <- gbig_lim. pose proof gbig_ge. nra. Qed.
  Lemma W_lim : W <= lim.
  Proof.
    destruct big as [P Q]. pose proof gbig_lim1. pose proof gbig_ge. destruct G1 as [G1 GW]. assert (G ^ 1 <= G ^ num) by (by apply Rle_pow). rewrite pow_1 in *. 
    assert (1 * G ^ num <= X * G ^ num) by (apply Rmult_le_compat_r; lra). lra.
  Qed.

  Definition inv (k : nat) (lvs : list LayerView) : Prop :=
    length lvs = num /\ Forall (fun lv => wide width lv /\ Forall (node_b (bw k) (lv_type lv)) (lv_nodes lv)) lvs /\
    forall lv, lvs !! (num - 1)%nat = Some lv -> lv_type lv = Softmax.
  Lemma inv_within k lvs : inv k lvs -> (k <= calls)%nat -> Forall (nodes_within W) lvs /\ Forall (wide width) lvs.
  Proof.
    intros (_ & H & _) Hk. pose proof (bw_bound k Hk). split; eapply Forall_impl; try exact H; intros lv [H1 H2]; [|done].
    eapply Forall_impl; [exact H2|]. intros v (Ty & Hw & Hb & _). split; [done|]. split; [|by eapply at_most_le].
    eapply Forall_impl; [exact Hw|]. intros x. by apply at_most_le.
  Qed.
  Lemma inv_reshuffled k iter lvs lvs1 : reshuffled iter lvs lvs1 -> inv k lvs -> inv k lvs1.
  Proof.
    intros [HR _] (H1 & H2 & H3). pose proof (Forall2_length _ _ _ HR) as HL. split; [congruence|]. split.
    - apply Forall_lookup. intros j lv' Hlv'. destruct (Forall2_lookup_r _ _ _ _ _ HR Hlv') as (lv & Hlv & r & -> & _). rewrite Forall_lookup in H2. exact (H2 _ _ Hlv).
    - intros lv' Hlv'. destruct (Forall2_lookup_r _ _ _ _ _ HR Hlv') as (lv & Hlv & r & -> & _). exact (H3 _ Hlv).
  Qed.

  Lemma pass_bound k lvs ex p : inv k lvs -> (k <= calls)%nat -> (length (features ex) <= width)%nat -> Forall (fun p => at_most X (iv_value p)) (features ex) ->
    pass_of E batch lvs sps ex p ->
    pass_finite p /\ forall j, (j < num)%nat -> pass_within width (G ^ (num - S j)) (X * G ^ j) j p.
  Proof.
    intros HI Hk Hf HF (HP & HEr & HD). destruct (inv_within _ _ HI Hk) as [HN HW]. destruct HI as (Hlen & _ & HSm). destruct big as [BG BP]. destruct G1 as [G1 _].
    pose proof gbig_lim1 as GL. pose proof gbig_ge. assert (Hn2 : (Z.of_nat width <= 2 ^ 50)%Z) by nia.
    destruct (outs_within E lvs sps 0 (labels ex) (features ex) p.1 W X width HE HN HW HF Hf Hn2 N1 W1 X1) as [O1 O2]; [|done|done|].
    { rewrite Hlen. change (4 * INR width * W) with G. lra. }
    change (4 * INR width * W) with G in O1.
    pose proof HP as (Hlo & _).
    assert (HS : forall out, p.1 !! length lvs = Some out -> Forall unit_range out).
    { intros out Ho. destruct (lookup_lt_is_Some_2 lvs (num - 1)%nat) as [lv Hlv]; [lia|]. apply (O2 (num - 1)%nat lv); [done| |by apply HSm].
      by replace (S (num - 1)) with (length lvs) by lia. }
    assert (EW : forall j d, p.2 !! j = Some d -> Forall (at_most (G ^ (num - S j))) d).
    { intros j d Hd. rewrite <- Hlen. apply (errors_within batch lvs (labels ex) p.1 p.2 W width); try done; [exact W1| |intros i out Ho; by apply (O1 i)].
      rewrite Hlen. change (4 * INR width * W) with G. assert (1 * G ^ num <= X * G ^ num) by (apply Rmult_le_compat_r; lra). lra. }
    split; [split|].
    - apply Forall_lookup. intros j out Ho. destruct (O1 _ _ Ho) as [H1 _]. eapply Forall_impl; [exact H1|]. by intros q [? _].
    - apply Forall_lookup. intros j d Hd. eapply Forall_impl; [exact (EW _ _ Hd)|]. by intros q [? _].
    - intros j Hj. split; [|split].
      + unfold inputs_of. destruct (p.1 !! j) as [cur|] eqn:E1; cbn; [|constructor]. by apply O1.
      + unfold inputs_of. destruct (p.1 !! j) as [cur|] eqn:E1; cbn; [by apply (O1 j)|lia].
      + intros i d Hd. unfold error_of in Hd. destruct (p.1 !! S j) as [out|]; [|discriminate Hd]. destruct (p.2 !! j) as [ds|] eqn:E1; [|discriminate Hd]. cbn in Hd.
        destruct (list_find _ _) as [[a q]|]; [|discriminate Hd]. cbn in Hd. specialize (EW _ _ E1). rewrite Forall_lookup in EW. by eapply EW.
  Qed.

  Lemma gradients_bound ps j i n : (j < num)%nat -> (length ps <= examples)%nat -> Forall (pass_within width (G ^ (num - S j)) (X * G ^ j) j) ps ->
    Forall (at_most gbig) (weight_gradient ps j i (replicate n fzero)) /\ at_most gbig (bias_gradient ps j i fzero).
  Proof.
    intros Hj Hl HP. destruct G1 as [G1 _]. destruct big as [_ BP]. pose proof gbig_ge. pose proof gbig_lim1.
    assert (A1 : 1 <= INR width) by (apply (le_INR 1); done). assert (A2 : 1 <= INR examples) by (apply (le_INR 1); done).
    assert (D1 : 1 <= G ^ (num - S j)) by (by apply pow_R1_Rle). assert (D2 : 1 <= G ^ j) by (by apply pow_R1_Rle). assert (D3 : 1 <= X * G ^ j) by nra.
    set (D := G ^ (num - S j)) in *. set (A := X * G ^ j) in *.
    assert (DA : D * A <= X * G ^ num).
    { unfold A, D. replace (G ^ (num - S j) * (X * G ^ j)) with (X * (G ^ (num - S j) * G ^ j)) by ring. rewrite <- pow_add. apply Rmult_le_compat_l; [lra|]. apply Rle_pow; [done|lia]. }
    assert (D4 : 1 <= D * A) by nra. assert (D5 : D <= D * A) by nra.
    assert (EM : INR (examples * width) = INR examples * INR width) by apply mult_INR.
    assert (M : 1 <= INR examples * INR width) by nra.
    assert (BN : INR examples * INR width * (4 * (D * A)) <= gbig).
    { rewrite gbig_pow. eapply Rle_trans; [|exact HG]. replace (4 * INR examples * INR width * X * G ^ num) with (INR examples * INR width * (4 * (X * G ^ num))) by ring.
      apply Rmult_le_compat_l; lra. }
    assert (BD : 4 * (D * A) <= gbig) by nra.
    assert (Z0 : forall Y, summed Y 0 fzero) by (intros Y; split; [apply finite_fzero|rewrite val_fzero, Rabs_R0; cbn; lra]).
    split.
    - assert (HS : Forall (summed (2 * (D * A)) (0 + examples * width)) (weight_gradient ps j i (replicate n fzero))).
      { apply weight_gradient_summed; try done; [lia| |by apply Forall_replicate]. rewrite Nat.add_0_l, EM. lra. }
      eapply Forall_impl; [exact HS|]. intros x Hx. apply summed_bound in Hx; [|lra|lia]. eapply at_most_le; [|exact Hx]. rewrite Nat.add_0_l, EM. lra.
    - assert (BI : INR examples * D <= INR examples * INR width * (D * A)).
      { rewrite Rmult_assoc. apply Rmult_le_compat_l; [lra|]. nra. }
      assert (HS : summed D (0 + examples) (bias_gradient ps j i fzero)).
      { apply bias_gradient_summed with (n := width) (A := A); try done; [nia|]. rewrite Nat.add_0_l. lra. }
      apply summed_bound in HS; [|lra|nia]. eapply at_most_le; [|exact HS]. rewrite Nat.add_0_l. lra.
  Qed.

  Lemma call_bound k exs iter rehash rebuild lvs lvs' ps : inv k lvs -> (k < calls)%nat -> call_within E lr0 width examples X (OpTrain exs iter rehash rebuild) ->
    call_passes E batch sps lr0 iter lvs exs ps -> call_result E (learning_rate E lr0 iter) ps lvs lvs' ->
    inv (S k) lvs' /\ Forall pass_finite ps /\
    forall j lv lv' i v v', lvs !! j = Some lv -> lvs' !! j = Some lv' -> lv_nodes lv !! i = Some v -> lv_nodes lv' !! i = Some v' -> moved (learning_rate E lr0 iter) v v'.
  Proof.
    intros HI Hk (C1 & C2 & C3 & C4) (lvs1 & HR & HP) [R1 R2]. rewrite HAd in HP. pose proof (inv_reshuffled _ _ _ _ HR HI) as HI1.
    assert (PB : forall i p, ps !! i = Some p -> pass_finite p /\ forall j, (j < num)%nat -> pass_within width (G ^ (num - S j)) (X * G ^ j) j p).
    { intros i p Hp. destruct (Forall2_lookup_r _ _ _ _ _ HP Hp) as (ex & He & HO). rewrite Forall_lookup in C2. destruct (C2 _ _ He) as [F1 F2].
      apply (pass_bound k lvs1 ex p); try done. lia. }
    pose proof (Forall2_length _ _ _ HP) as HL.
    assert (NB : forall j lv lv' i v v', lvs !! j = Some lv -> lvs' !! j = Some lv' -> lv_nodes lv !! i = Some v -> lv_nodes lv' !! i = Some v' ->
      node_b (bw (S k)) (lv_type lv) v' /\ moved (learning_rate E lr0 iter) v v').
    { intros j lv lv' i v v' Hlv Hlv' Hv Hv'. destruct (R2 _ _ _ Hlv Hlv') as (_ & _ & NR). destruct (NR _ _ _ Hv Hv') as [HId NA]. rewrite HAd in NA.
      destruct HI as (L1 & L2 & _). assert (Hj : (j < num)%nat) by (apply lookup_lt_Some in Hlv; lia).
      destruct (gradients_bound ps j i (length (v_w v)) Hj ltac:(lia)) as [T1 T2].
      { apply Forall_lookup. intros q p Hp. by apply (PB q). }
      rewrite Forall_lookup in L2. destruct (L2 _ _ Hlv) as [_ L3]. rewrite Forall_lookup in L3.
      apply (adam_within _ _ _ (bw k) (bw (S k)) (lv_type lv) v v' C3 C4 T1 T2); [|apply bw_step|by eapply L3|done|done].
      eapply Rle_trans; [apply bw_bound; lia|exact W_lim]. }
    split; [|split; [apply Forall_lookup; intros i p Hp; by apply (PB i)|intros; by eapply NB]].
    destruct HI as (L1 & L2 & L3). split; [congruence|]. rewrite Forall_lookup in L2. split.
    - apply Forall_lookup. intros j lv' Hlv'. destruct (lookup_lt_is_Some_2 lvs j) as [lv Hlv]; [rewrite <- R1; by eapply lookup_lt_Some|].
      destruct (R2 _ _ _ Hlv Hlv') as (Ty & Le & _). destruct (L2 _ _ Hlv) as [L4 _]. split; [unfold wide in *; congruence|]. rewrite Ty.
      apply Forall_lookup. intros i v' Hv'. destruct (lookup_lt_is_Some_2 (lv_nodes lv) i) as [v Hv]; [rewrite <- Le; by eapply lookup_lt_Some|]. by eapply NB.
    - intros lv' Hlv'. destruct (lookup_lt_is_Some_2 lvs (num - 1)%nat) as [lv Hlv]; [lia|]. destruct (R2 _ _ _ Hlv Hlv') as (-> & _). by apply L3.
  Qed.

  Lemma inv_same k P nv nv' : net_same_but P nv nv' -> inv k (nv_layers nv) -> inv k (nv_layers nv').
  Proof.
    intros [_ HS] (L1 & L2 & L3). rewrite Forall_lookup in L2. pose proof (Forall2_length _ _ _ HS) as HL. split; [congruence|]. split.
    - apply Forall_lookup. intros j lv' Hlv'. destruct (Forall2_lookup_r _ _ _ _ _ HS Hlv') as (lv & Hlv & K). destruct (L2 _ _ Hlv) as [H1 H2].
      pose proof (Forall2_length _ _ _ (ls_nodes _ _ _ K)) as HN. split; [unfold wide in *; congruence|]. rewrite (ls_type _ _ _ K). rewrite Forall_lookup in H2.
      apply Forall_lookup. intros i v' Hv'. destruct (Forall2_lookup_r _ _ _ _ _ (ls_nodes _ _ _ K) Hv') as (v & Hv & SB). specialize (H2 _ _ Hv).
      pose proof (sb_learned _ _ _ SB) as Hle. unfold learned in Hle. injection Hle as E1 E2 E3 E4 E5 E6 E7 E8 E9.
      pose proof (sb_identity _ _ _ SB) as Hid. unfold identity in Hid. injection Hid as F1 F2 F3. unfold node_b in *.
      by repeat match goal with H : _ = _ v |- _ => rewrite H end.
    - intros lv' Hlv'. destruct (Forall2_lookup_r _ _ _ _ _ HS Hlv') as (lv & Hlv & K). rewrite (ls_type _ _ _ K). by apply L3.
  Qed.

  Lemma history_bound nv os pss nv' : history E batch sps lr0 nv os pss nv' -> inv 0 (nv_layers nv) -> Forall (call_within E lr0 width examples X) os ->
    (length (trained_examples os) <= calls)%nat -> inv (length (trained_examples os)) (nv_layers nv') /\ Forall (Forall pass_finite) pss.
  Proof.
    intros HH H0. induction HH as [|os pss nv1 exs iter rehash rebuild ps nv2 HH IH HP HR|os pss nv1 exs nv2 HH IH HS]; intros HO HL.
    - split; [done|constructor].
    - apply Forall_app in HO as [HO HO1]. rewrite Forall_singleton in HO1. unfold trained_examples in *. rewrite omap_app in *. cbn in *. rewrite app_length in *. cbn [length] in *.
      destruct (IH HO ltac:(lia)) as [I1 I2]. destruct (call_bound _ _ _ rehash rebuild _ _ _ I1 ltac:(lia) HO1 HP HR) as (J1 & J2 & _).
      split; [by rewrite Nat.add_1_r|]. apply Forall_app. split; [done|]. by constructor.
    - apply Forall_app in HO as [HO _]. unfold trained_examples in *. rewrite omap_app in *. cbn in *. rewrite app_nil_r in *. destruct (IH HO HL) as [I1 I2].
      split; [by eapply inv_same|done].
  Qed.
End Bound.

(** ** A new network *)
Lemma norm_draw_within norm w0 q : (forall i, at_most w0 (norm i)) -> 1 <= w0 -> w0 <= lim -> at_most w0 (norm_draw norm q).
Proof.
  intros HN W0 WL. unfold norm_draw. destruct (HN q) as [Fq Bq]. destruct c_100 as [Fc Cc].
  assert (C : Rabs (val (dec 1 100)) <= 0.02) by (apply Rabs_le; lra). pose proof (rabs_mul _ _ _ _ Bq C) as B. pose proof lim_ge1.
  destruct (vmul (norm q) (dec 1 100) Fq Fc ltac:(lra)) as (F & d & e & Hd & He & V). apply near1 in Hd. pose proof eta_kap. assert (kap * kap <= 0.1) by (unfold kap; lra).
  assert (B1 : Rabs (val (fmul (norm q) (dec 1 100))) <= 0.2 * w0).
  { rewrite V. eapply Rle_trans; [apply Rabs_triang|]. pose proof (rabs_mul _ 1.1 _ (1 + d) B ltac:(apply Rabs_le; lra)). lra. }
  destruct (vadd (fmul (norm q) (dec 1 100)) fzero F finite_fzero) as (F2 & d2 & D2 & V2); [rewrite val_fzero, Rplus_0_r; lra|]. split; [done|].
  rewrite V2, val_fzero, Rplus_0_r. apply near1 in D2. pose proof (rabs_mul _ 1.1 _ (1 + d2) B1 ltac:(apply Rabs_le; lra)). lra.
Qed.
Lemma new_within norm pos N P ty batch w0 : (forall i, at_most w0 (norm i)) -> 1 <= w0 -> w0 <= lim -> Forall (node_b w0 ty) (new_nodes true norm pos N P ty batch).
Proof.
  intros HN W0 WL. unfold new_nodes. apply Forall_map, Forall_forall. intros i _. unfold new_node. split; [done|]. cbn [v_w v_bias v_mom v_vel v_momBias v_velBias].
  split; [apply Forall_map, Forall_forall; intros q _; by apply norm_draw_within|]. split; [by apply norm_draw_within|].
  split; [apply Forall2_same_length_lookup_2; [done|]; intros q x y [-> _]%lookup_replicate [-> _]%lookup_replicate; exact moments_zero|].
  split; [exact moments_zero|]. by rewrite map_length, seq_length, replicate_length.
Qed.
Lemma net_new_within E c num sizes types batch lr inputDim k l rp sparsity m n m' width w0 : (forall i, at_most w0 (m_norm m i)) -> 1 <= w0 -> w0 <= lim ->
  e_LoadWeight E = false -> e_UseAdam E = true -> dims_ok E num sizes batch inputDim ->
  (forall j size, (Z.of_nat j < num)%Z -> sizes !! j = Some size -> (size <= Z.of_nat width)%Z) -> types !! (Z.to_nat num - 1)%nat = Some Softmax ->
  network_New E c num sizes types batch lr inputDim k l rp sparsity m = Ok (n, m') ->
  exists nv, live E m' c n nv /\ inv width (Z.to_nat num) w0 0 (nv_layers nv).
Proof.
  intros HR W0 WL HL HA HD HW HT HN. destruct (new_effect _ _ _ _ _ _ _ _ _ _ _ _ _ _ _ HL HD HN) as (nv & L & [HLen HS] & HF). exists nv. split; [done|].
  split; [lia|]. split.
  - apply Forall_lookup. intros j lv Hlv. destruct (HS _ _ Hlv) as (size & prev & ty & kj & lj & rj & H1 & H2 & H3 & _ & _ & H6 & SH).
    assert (Hj : (Z.of_nat j < num)%Z) by (apply lookup_lt_Some in Hlv; lia). split.
    + unfold wide. rewrite (ss_size _ _ _ _ _ _ _ _ _ SH). specialize (HW _ _ Hj H1). lia.
    + destruct (HF _ _ _ _ _ _ Hlv H1 H2 H3 H6) as [_ ->]. rewrite (ss_type _ _ _ _ _ _ _ _ _ SH), HA. unfold bw. cbn [INR Rpow_def.pow].
      replace ((w0 + 8 * 0) * 1) with w0 by ring. by apply new_within.
  - intros lv Hlv. destruct (HS _ _ Hlv) as (size & prev & ty & kj & lj & rj & _ & _ & H3 & _ & _ & _ & SH). rewrite (ss_type _ _ _ _ _ _ _ _ _ SH). congruence.
Qed.

Lemma bound_calls E c num sizes types batch lr inputDim k l rp sparsity m n m' os n' m'' width examples calls w0 X :
  e_LoadWeight E = false -> e_UseAdam E = true -> dims_ok E num sizes batch inputDim -> (1 <= batch)%Z -> (1 <= num)%Z ->
  types !! (Z.to_nat num - 1)%nat = Some Softmax -> exp_ok E -> training_within E num sizes lr m os width examples calls w0 X ->
  network_New E c num sizes types batch lr inputDim k l rp sparsity m = Ok (n, m') ->
  call_ops E c n os m' = Ok (n', m'') ->
  exists nv nv' pss, live E m' c n nv /\ live E m'' c n nv' /\ history E batch sparsity lr nv os pss nv' /\
    Forall (fun lv => Forall (node_within (weight_bound w0 calls)) (lv_nodes lv)) (nv_layers nv') /\ Forall (Forall pass_finite) pss.
Proof.
  intros HL HA HD HB Hnum HT HE [W0 HR HW X1 N1 M1 HO HC HWM HCa HG] H1 H2.
  destruct (calls_history _ _ _ _ _ _ _ _ _ _ _ _ _ _ _ _ _ _ HL HD H1 H2) as (nv & nv' & pss & L & L' & HH).
  assert (WL : w0 <= lim).
  { eapply Rle_trans; [|apply (W_lim width examples (Z.to_nat num) calls w0 X); (done || lia)]. unfold weight_bound. pose proof (pos_INR calls). lra. }
  destruct (net_new_within _ _ _ _ _ _ _ _ _ _ _ _ _ _ _ width w0 HR W0 WL HL HA HD HW HT H1) as (nv0 & L0 & HI). rewrite (live_unique _ _ _ _ _ _ L0 L) in HI.
  assert (Hn : (1 <= Z.to_nat num)%nat) by lia.
  destruct (history_bound E batch sparsity lr width examples (Z.to_nat num) calls w0 X HA HB HE W0 X1 N1 M1 HWM HCa Hn HG _ _ _ _ HH HI HO HC) as [I1 I2].
  exists nv, nv', pss. repeat (split; [done|]). split; [|done]. destruct I1 as (_ & I1 & _).
  eapply Forall_impl; [exact I1|]. intros lv [_ Hl]. eapply Forall_impl; [exact Hl|]. intros v (_ & Hw & Hb & Hm & Hmb & _).
  pose proof (bw_bound calls w0 W0 HCa _ HC) as BW.
  split; [eapply Forall_impl; [exact Hw|]; intros x; by apply at_most_le|]. split; [by eapply at_most_le|].
  split; [|split; [|destruct Hmb as ([? _] & ? & _); done]].
  - apply Forall_lookup. intros q x Hx. destruct (Forall2_lookup_l _ _ _ _ _ Hm Hx) as (y & _ & [F _] & _). done.
  - apply Forall_lookup. intros q x Hx. destruct (Forall2_lookup_r _ _ _ _ _ Hm Hx) as (y & _ & _ & F & _). done.
Qed.
Lemma bound_step E c num sizes types batch lr inputDim k l rp sparsity m n m' os n' m'' exs iter rehash rebuild ins n'' m3 width examples calls w0 X :
  e_LoadWeight E = false -> e_UseAdam E = true -> dims_ok E num sizes batch inputDim -> (1 <= batch)%Z -> (1 <= num)%Z ->
  types !! (Z.to_nat num - 1)%nat = Some Softmax -> exp_ok E -> training_within E num sizes lr m (os ++ [OpTrain exs iter rehash rebuild]) width examples calls w0 X ->
  network_New E c num sizes types batch lr inputDim k l rp sparsity m = Ok (n, m') ->
  call_ops E c n os m' = Ok (n', m'') ->
  network_ProcessInput E c n exs iter rehash rebuild m'' = Ok ((ins, n''), m3) ->
  exists nv nv', live E m'' c n nv /\ live E m3 c n nv' /\
    forall j lv lv' i v v', nv_layers nv !! j = Some lv -> nv_layers nv' !! j = Some lv' -> lv_nodes lv !! i = Some v -> lv_nodes lv' !! i = Some v' ->
      Forall2 (moved_by (learning_rate E lr iter)) (v_w v) (v_w v') /\ moved_by (learning_rate E lr iter) (v_bias v) (v_bias v').
Proof.
  intros HL HA HD HB Hnum HT HE [W0 HR HW X1 N1 M1 HO HC HWM HCa HG] H1 H2 H3.
  destruct (calls_history _ _ _ _ _ _ _ _ _ _ _ _ _ _ _ _ _ _ HL HD H1 H2) as (nv & nv' & pss & L & L' & HH).
  assert (WL : w0 <= lim).
  { eapply Rle_trans; [|apply (W_lim width examples (Z.to_nat num) calls w0 X); (done || lia)]. unfold weight_bound. pose proof (pos_INR calls). lra. }
  destruct (net_new_within _ _ _ _ _ _ _ _ _ _ _ _ _ _ _ width w0 HR W0 WL HL HA HD HW HT H1) as (nv0 & L0 & HI). rewrite (live_unique _ _ _ _ _ _ L0 L) in HI.
  assert (Hn : (1 <= Z.to_nat num)%nat) by lia. apply Forall_app in HO as [HO HO1]. rewrite Forall_singleton in HO1.
  unfold trained_examples in HC. rewrite omap_app in HC. cbn in HC. rewrite app_length in HC. cbn [length] in HC.
  destruct (history_bound E batch sparsity lr width examples (Z.to_nat num) calls w0 X HA HB HE W0 X1 N1 M1 HWM HCa Hn HG _ _ _ _ HH HI HO ltac:(unfold trained_examples; lia)) as [I1 I2].
  destruct (shape_calls _ _ _ _ _ _ _ _ _ _ _ _ _ _ _ _ _ _ HL HD H1 H2) as (-> & nv1 & L1 & HS1 & HZ1). rewrite <- (live_unique _ _ _ _ _ _ L' L1) in HS1, HZ1. clear nv1 L1.
  destruct (training_done _ _ _ _ _ _ _ _ _ _ _ _ _ _ _ _ _ _ _ _ _ _ _ _ _ HL HD H1 H2 H3) as (_ & nva & nvb & La & Lb & HTr & _). rewrite <- (live_unique _ _ _ _ _ _ L' La) in HTr.
  destruct (call_history _ _ _ _ _ _ _ _ _ _ _ _ _ _ _ _ _ HS1 HZ1 HTr) as (ps & HP & HRs). exists nv', nvb. split; [done|]. split; [done|].
  assert (HK : (length (trained_examples os) < calls)%nat) by (unfold trained_examples; lia).
  destruct (call_bound E batch sparsity lr width examples (Z.to_nat num) calls w0 X HA HB HE W0 X1 N1 M1 HWM HCa Hn HG _ _ _ rehash rebuild _ _ _ I1 HK HO1 HP HRs) as (_ & _ & HM).
  intros. by eapply HM.
Qed.
