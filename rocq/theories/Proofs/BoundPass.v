(** One pass through a network with bounded parameters. *)
From Verif.Spec Require Import BoundSpec LayerSpec.
From Verif.Proofs Require Import FloatReal FloatSub FloatRange BaseProofs RoundProofs NetInfer AdamProofs BoundFloat SoftmaxProofs RangeProofs.
From Coq Require Import Reals Psatz.
From Flocq Require Import Core BinarySingleNaN.
Import BinarySingleNaN.
Local Notation bf := (binary_float 53 1024).
Local Open Scope R_scope.
Local Notation u := u_round.

Lemma lim_pow : lim = 2 ^ 1000.
Proof. unfold lim. change 1000%Z with (Z.of_nat (Z.to_nat 1000)). rewrite bpow_powerRZ, <- pow_powerRZ. reflexivity. Qed.
Lemma at_most_le a b x : a <= b -> at_most a x -> at_most b x.
Proof. intros H [F L]. split; [done|lra]. Qed.
Lemma at_most_rep b x : at_most b x -> representable x. Proof. by intros [[H _] _]. Qed.

(** * Weighted sums *)
Lemma sumR_le {A} (f : A -> R) xs b : (forall x, x ∈ xs -> f x <= b) -> sumR (map f xs) <= INR (length xs) * b.
Proof.
  induction xs as [|x xs IH]; intros H; [cbn; lra|]. cbn [map length]. rewrite S_INR. unfold sumR in *. cbn [fold_right].
  assert (f x <= b) by (apply H; left). assert (fold_right Rplus 0 (map f xs) <= INR (length xs) * b) by (apply IH; intros; apply H; by right). lra.
Qed.
Lemma weight_within w W p : Forall (at_most W) w -> 0 <= W -> at_most W (weight_for w p).
Proof.
  intros H HW. unfold weight_for. destruct (w !! _) as [x|] eqn:E1; cbn; [|split; [apply finite_fzero|rewrite val_fzero, Rabs_R0; lra]].
  rewrite Forall_lookup in H. by eapply H.
Qed.
Lemma sum_within w W b data A n : Forall (at_most W) w -> at_most W b -> Forall (fun p => at_most A (iv_value p)) data ->
  (length data <= n)%nat -> (Z.of_nat n <= 2 ^ 50)%Z -> (1 <= n)%nat -> 1 <= W -> 1 <= A -> 4 * INR n * W * A <= lim ->
  at_most (4 * INR n * W * A) (fadd (fold_left (fun s p => fadd s (fmul (weight_for w p) (iv_value p))) data fzero) b).
Proof.
  intros HW HB HD Hn Hn2 Hn1 W1 A1 HL.
  assert (N1 : 1 <= INR n) by (apply (le_INR 1); lia). assert (Nd : INR (length data) <= INR n) by (apply le_INR; lia).
  pose proof (pos_INR (length data)) as D0. assert (WA : W <= W * A) by nra. assert (WA1 : 1 <= W * A) by nra.
  assert (MG : magnitude w b data <= 2 * INR n * W * A).
  { unfold magnitude. assert (H1 : sumR (map (fun p => Rabs (val (weight_for w p) * val (iv_value p))) data) <= INR (length data) * (W * A)).
    { apply sumR_le. intros p Hp. apply rabs_mul; [apply weight_within; [done|lra]|]. rewrite Forall_forall in HD. by apply HD. }
    assert (INR (length data) * (W * A) <= INR n * (W * A)) by (apply Rmult_le_compat_r; lra). destruct HB as [_ HB].
    assert (W * A <= INR n * (W * A)) by nra. lra. }
  assert (P1 : 1 <= INR n * W * A) by (rewrite Rmult_assoc; nra).
  assert (HN : (Z.of_nat (length data) <= 2 ^ 50)%Z) by lia.
  destruct (sum_err w b data) as [F EB]; [eapply Forall_impl; [exact HW|by intros x []]|apply HB|eapply Forall_impl; [exact HD|by intros x []]|exact HN|rewrite <- lim_pow; lra|].
  split; [exact F|]. set (z := val _) in *.
  assert (M0 : 0 <= magnitude w b data) by (unfold magnitude; pose proof (total_pos (fun p => val (weight_for w p) * val (iv_value p)) data); pose proof (Rabs_pos (val b)); lra).
  assert (EX : Rabs (exact_sum w b data) <= magnitude w b data).
  { unfold exact_sum, magnitude. eapply Rle_trans; [apply Rabs_triang|]. apply Rplus_le_compat_r. apply total_abs. }
  assert (GM : gamma (S (S (length data))) <= / 2).
  { unfold gamma. pose proof (small_k (S (S (length data))) ltac:(lia)) as S0. pose proof u_pos. pose proof (pos_INR (S (S (length data)))).
    set (t := INR _ * u) in *. apply (Rmult_le_reg_r (1 - t)); [lra|]. unfold Rdiv. rewrite Rmult_assoc, Rinv_l by lra. lra. }
  assert (ETB : INR (S (length data)) * eta_round <= / 2).
  { rewrite eta_half. pose proof (small_k (S (length data)) ltac:(lia)) as S0. pose proof eta_pos.
    assert (eta <= u / 2). { rewrite u_bpow. unfold eta. apply Rle_trans with (bpow radix2 (-60)); [apply bpow_le; lia|].
      change (-60)%Z with (-8 + -52)%Z. rewrite bpow_plus. change (-53 + 1)%Z with (-52)%Z. change (bpow radix2 (-8)) with (/ 256). pose proof (bpow_gt_0 radix2 (-52)). lra. }
    pose proof (pos_INR (S (length data))). nra. }
  assert (GMM : gamma (S (S (length data))) * magnitude w b data <= / 2 * magnitude w b data) by (apply Rmult_le_compat_r; lra).
  replace z with ((z - exact_sum w b data) + exact_sum w b data) by ring. eapply Rle_trans; [apply Rabs_triang|].
  lra.
Qed.

(** * Outputs *)
Definition nodes_within (W : R) (lv : LayerView) : Prop :=
  Forall (fun v => v_type v = lv_type lv /\ Forall (at_most W) (v_w v) /\ at_most W (v_bias v)) (lv_nodes lv).
Definition unit_range (p : Pair) : Prop := finite_number (iv_value p) /\ 0 <= val (iv_value p) <= 1.
Lemma activation_within v cur a W A n : Forall (at_most W) (v_w v) -> at_most W (v_bias v) -> Forall (fun p => at_most A (iv_value p)) cur ->
  (length cur <= n)%nat -> (Z.of_nat n <= 2 ^ 50)%Z -> (1 <= n)%nat -> 1 <= W -> 1 <= A -> 4 * INR n * W * A <= lim ->
  activation v cur a -> at_most (4 * INR n * W * A) a.
Proof.
  intros HW HB HC Hn Hn2 Hn1 W1 A1 HL (s & Hs & Ha). apply weighted_sum_fold in Hs as ->.
  pose proof (sum_within _ _ _ _ _ _ HW HB HC Hn Hn2 Hn1 W1 A1 HL) as HS. set (z := fadd _ _) in *.
  destruct (v_type v); [|by subst a|done]. subst a. destruct (fltb z fzero); [|done].
  destruct HS as [_ HS]. split; [apply finite_fzero|]. rewrite val_fzero, Rabs_R0. eapply Rle_trans; [apply Rabs_pos|exact HS].
Qed.
Lemma output_within E lv cur ids out W A n : exp_ok E -> nodes_within W lv -> Forall (fun p => at_most A (iv_value p)) cur ->
  (length cur <= n)%nat -> (Z.of_nat n <= 2 ^ 50)%Z -> (1 <= n)%nat -> 1 <= W -> 1 <= A -> 4 * INR n * W * A <= lim ->
  layer_output E lv cur ids out ->
  Forall (fun p => at_most (4 * INR n * W * A) (iv_value p)) out /\ (lv_type lv = Softmax -> Forall unit_range out) /\
  Forall (fun p => 0 <= iv_index p < Z.of_nat (length (lv_nodes lv)))%Z out.
Proof.
  intros HE HN HC Hn Hn2 Hn1 W1 A1 HL (acts & HA & HO).
  assert (B1 : 1 <= 4 * INR n * W * A).
  { assert (1 <= INR n) by (apply (le_INR 1); lia). assert (1 <= W * A) by nra. rewrite Rmult_assoc. nra. }
  assert (Hr : Forall (at_most (4 * INR n * W * A)) acts).
  { apply Forall_forall. intros a [k Hk]%elem_of_list_lookup. destruct (Forall2_lookup_r _ _ _ _ _ HA Hk) as (id & _ & _ & v & Hv & Ha).
    unfold nodes_within in HN. rewrite Forall_lookup in HN. destruct (HN _ _ Hv) as (_ & Hw & Hb). by eapply activation_within. }
  assert (HI : Forall (fun id => 0 <= id < Z.of_nat (length (lv_nodes lv)))%Z ids).
  { apply Forall_forall. intros id [k Hk]%elem_of_list_lookup. destruct (Forall2_lookup_l _ _ _ _ _ HA Hk) as (a & _ & Hid & v & Hv & _).
    apply lookup_lt_Some in Hv. lia. }
  assert (HZ : forall xs, Forall (fun p => 0 <= iv_index p < Z.of_nat (length (lv_nodes lv)))%Z (zip_with mkPair ids xs)).
  { intros xs. apply Forall_lookup. intros k p Hk. apply lookup_zip_with_Some in Hk as (id & e & -> & Hid & _). cbn [iv_index]. rewrite Forall_lookup in HI. by eapply HI. }
  destruct (is_softmax (lv_type lv)) eqn:ES.
  - destruct HO as (mx & HG & ->).
    assert (HR : layer_representable lv cur).
    { split; eapply Forall_impl; [exact HN| |exact HC|].
      - intros v (_ & Hw & Hb). split; [eapply Forall_impl; [exact Hw|apply at_most_rep]|by eapply at_most_rep].
      - intros p. apply at_most_rep. }
    pose proof (exponents_not_pos _ _ _ _ _ HR HA HG) as HX. destruct (greatest_bound _ _ HG) as (_ & Hin & _).
    assert (Hm : at_most (4 * INR n * W * A) mx).
    { apply elem_of_cons in Hin as [->|Hin]; [split; [apply finite_fzero|rewrite val_fzero, Rabs_R0; lra]|]. rewrite Forall_forall in Hr. by apply Hr. }
    assert (HU : Forall unit_range (zip_with mkPair ids (exps E acts mx))).
    { apply Forall_lookup. intros k p Hk. apply lookup_zip_with_Some in Hk as (id & e & -> & _ & He). unfold exps in He. rewrite list_lookup_fmap in He. apply fmap_Some in He as (a & Ha & ->).
      rewrite Forall_lookup in Hr, HX. destruct (Hr _ _ Ha) as [Fa Ba]. destruct Hm as [Fm Bm]. apply HE; [|by eapply HX].
      pose proof (Rabs_triang (val a) (- val mx)) as T. rewrite Rabs_Ropp in T. destruct (vsub a mx Fa Fm) as [F _]; [unfold Rminus; lra|exact F]. }
    split; [|split; [done|apply HZ]]. eapply Forall_impl; [exact HU|]. intros p [Fp Bp]. split; [done|]. rewrite Rabs_pos_eq; lra.
  - subst out. split; [|split; [intros HT; by rewrite HT in ES|apply HZ]].
    apply Forall_lookup. intros k p Hk. apply lookup_zip_with_Some in Hk as (id & a & -> & _ & Ha). cbn [iv_value]. rewrite Forall_lookup in Hr. by eapply Hr.
Qed.
Lemma nodup_range (xs : list Z) (N : nat) : NoDup xs -> Forall (fun x => 0 <= x < Z.of_nat N)%Z xs -> (length xs <= N)%nat.
Proof.
  intros HN HR. assert (HS : xs ⊆ seqZ 0 (Z.of_nat N)) by (intros x Hx; rewrite Forall_forall in HR; apply elem_of_seqZ; specialize (HR _ Hx); lia).
  pose proof (submseteq_length _ _ (NoDup_submseteq _ _ HN HS)) as L. rewrite seqZ_length in L. lia.
Qed.

(** The features and outputs of a network of [L] layers grow at most by the factor [G] from layer to layer. *)
Definition wide (n : nat) (lv : LayerView) : Prop := (length (lv_nodes lv) <= n)%nat.
Lemma outs_within E lvs sps off lab feats outs W X n : exp_ok E -> Forall (nodes_within W) lvs -> Forall (wide n) lvs ->
  Forall (fun p => at_most X (iv_value p)) feats -> (length feats <= n)%nat -> (Z.of_nat n <= 2 ^ 50)%Z -> (1 <= n)%nat -> 1 <= W -> 1 <= X ->
  X * (4 * INR n * W) ^ length lvs <= lim ->
  inference E lvs sps off lab feats outs -> Forall (fun out => NoDup (map iv_index out)) (tail outs) ->
  (forall j out, outs !! j = Some out -> Forall (fun p => at_most (X * (4 * INR n * W) ^ j) (iv_value p)) out /\ (length out <= n)%nat) /\
  (forall j lv out, lvs !! j = Some lv -> outs !! S j = Some out -> lv_type lv = Softmax -> Forall unit_range out).
Proof.
  intros HE HN HWd HF Hf Hn2 Hn1 W1 X1 HL (Hlen & H0 & HS) HD. set (G := 4 * INR n * W) in *.
  assert (N1 : 1 <= INR n) by (apply (le_INR 1); lia). assert (G1 : 1 <= G) by (unfold G; nra).
  assert (GP : forall i, 1 <= G ^ i) by (intros i; by apply pow_R1_Rle).
  assert (GM : forall i, (i <= length lvs)%nat -> X * G ^ i <= lim).
  { intros i Hi. eapply Rle_trans; [|exact HL]. apply Rmult_le_compat_l; [lra|]. by apply Rle_pow. }
  assert (KEY : forall j lv cur out, lvs !! j = Some lv -> outs !! j = Some cur -> outs !! S j = Some out ->
    Forall (fun p => at_most (X * G ^ j) (iv_value p)) cur -> (length cur <= n)%nat ->
    (Forall (fun p => at_most (X * G ^ S j) (iv_value p)) out /\ (length out <= n)%nat) /\ (lv_type lv = Softmax -> Forall unit_range out)).
  { intros j lv cur out Hlv Hc Ho HC Hcl. destruct (HS _ _ _ _ Hlv Hc Ho) as (sp & ids & _ & _ & HO).
    rewrite Forall_lookup in HN, HWd. specialize (HN _ _ Hlv). specialize (HWd _ _ Hlv).
    assert (EQ : 4 * INR n * W * (X * G ^ j) = X * G ^ S j) by (cbn [Rpow_def.pow]; unfold G; ring).
    assert (B1 : 1 <= X * G ^ j) by (specialize (GP j); nra).
    destruct (output_within E lv cur ids out W (X * G ^ j) n HE HN HC Hcl Hn2 Hn1 W1 B1) as (O1 & O2 & O3).
    { rewrite EQ. apply GM. apply lookup_lt_Some in Hlv. lia. } { exact HO. }
    rewrite EQ in O1. split; [|exact O2]. split; [exact O1|]. rewrite <- (map_length iv_index). transitivity (length (lv_nodes lv)); [|exact HWd].
    apply nodup_range; [|by apply Forall_map]. rewrite Forall_lookup in HD. apply (HD j). destruct outs; [done|exact Ho]. }
  assert (ALL : forall j out, outs !! j = Some out -> Forall (fun p => at_most (X * G ^ j) (iv_value p)) out /\ (length out <= n)%nat).
  { induction j as [|j IH]; intros out Ho.
    - rewrite H0 in Ho. injection Ho as <-. split; [|done]. cbn [Rpow_def.pow]. by rewrite Rmult_1_r.
    - destruct (lookup_lt_is_Some_2 lvs j) as [lv Hlv]; [apply lookup_lt_Some in Ho; lia|].
      destruct (lookup_lt_is_Some_2 outs j) as [cur Hcur]; [apply lookup_lt_Some in Ho; lia|].
      destruct (IH _ Hcur) as [I1 I2]. by apply (KEY j lv cur out). }
  split; [exact ALL|]. intros j lv out Hlv Ho HT. destruct (lookup_lt_is_Some_2 outs j) as [cur Hcur]; [apply lookup_lt_Some in Ho; lia|].
  destruct (ALL _ _ Hcur) as [I1 I2]. by eapply (KEY j lv cur out).
Qed.

(** * Errors *)
Lemma fsum_above (es : list bf) (acc : bf) : Forall (inside 0 1) es -> above 0 acc ->
  let s := fold_left (Bplus mode_NE) es acc in
  fold_left fadd (map B2SF es) (B2SF acc) = B2SF s /\ above 0 s /\ (forall r, above r acc -> above r s) /\ Forall (fun e => above (B2R e) s) es.
Proof.
  revert acc. induction es as [|e es IH]; intros acc HE HA; cbn [fold_left map]; cbv zeta.
  - split; [done|]. split; [done|]. split; [done|constructor].
  - apply Forall_cons in HE as [He HE]. rewrite fadd_B. pose proof (inside_above _ _ _ He) as He0.
    destruct (plus_above acc e 0 HA He0 (or_introl HA)) as [_ HP0]. destruct (IH _ HE HP0) as (I1 & I2 & I3 & I4). split; [done|]. split; [done|]. split.
    + intros r Hr. apply I3. by apply (plus_above acc e r HA He0 (or_introl Hr)).
    + constructor; [|done]. apply I3. apply (plus_above acc e _ HA He0). right. right. split; [apply He|apply Rle_refl].
Qed.
Lemma output_error_within batch lab out p : (1 <= batch)%Z -> Forall unit_range out -> p ∈ out ->
  at_most 1 (output_error batch lab (fold_left fadd (map iv_value out) fzero) p).
Proof.
  intros HB HO Hp.
  assert (HE : exists es : list bf, map iv_value out = map B2SF es /\ Forall (inside 0 1) es).
  { clear p Hp. induction HO as [|p out [Fp Bp] _ (es & H1 & H2)]; [by exists []|]. apply finite_B in Fp as (b & Hb & Fb).
    exists (b :: es). cbn [map]. rewrite H1, Hb. split; [done|]. constructor; [|done]. rewrite Hb, val_B in Bp. by split. }
  destruct HE as (es & HE & HG). destruct (fsum_above es (B754_zero false) HG) as (S1 & S0 & _ & SE).
  { right. split; [done|]. apply Rle_refl. }
  cbv zeta in *. set (s := fold_left (Bplus mode_NE) es (B754_zero false)) in *. rewrite HE.
  change fzero with (@B2SF 53 1024 (B754_zero false)). rewrite S1.
  assert (HV : exists e, iv_value p = B2SF e /\ e ∈ es).
  { apply elem_of_list_lookup in Hp as [k Hk]. assert (Hm : map iv_value out !! k = Some (iv_value p)) by (rewrite list_lookup_fmap, Hk; done).
    rewrite HE, list_lookup_fmap in Hm. apply fmap_Some in Hm as (e & He & ->). exists e. split; [done|]. by eapply elem_of_list_lookup_2. }
  destruct HV as (e & Ve & Hin). unfold output_error. rewrite Ve. destruct em7_val as (z & -> & Fz & Z). rewrite fadd_B, fdiv_B.
  rewrite Forall_forall in SE, HG. pose proof (SE _ Hin) as Ae. destruct (HG _ Hin) as [Fe Ee].
  assert (Az : above 0 z) by (right; split; [done|lra]).
  assert (ID : inside 0 1 (Bdiv mode_NE e (Bplus mode_NE s z))).
  { apply div_inside; [done|lra|by apply plus_above; auto|by apply plus_above; auto|].
    destruct (plus_above s z (B2R z) S0 Az (or_intror (or_intror (conj Fz (Rle_refl _))))) as [[->|[_ H]] _]; [by right|left; lra]. }
  cbv zeta. set (b := Bdiv mode_NE e (Bplus mode_NE s z)) in *. clearbody b. destruct ID as [Fb Bb].
  pose proof (BofZ_above batch HB) as AB.
  assert (NB : (B2R (BofZ batch) <> 0%R \/ BofZ batch = B754_infinity false)) by (destruct AB as [->|[_ H]]; [by right|left; lra]).
  assert (FIN : forall x : bf, inside (-1) 1 x -> at_most 1 (B2SF x)).
  { intros x [F B]. split; [by apply B_finite|]. rewrite val_B. apply Rabs_le. lra. }
  case_bool_decide as Hi.
  - assert (HLn : (1 <= Z.of_nat (length lab))%Z) by (destruct lab; [by apply elem_of_nil in Hi|cbn; lia]).
    pose proof (BofZ_above _ HLn) as AL. destruct fone_val as (o & HO1 & O1 & O2). rewrite !f_of_Z_B.
    assert (HD : fdiv fone (B2SF (BofZ (Z.of_nat (length lab)))) = B2SF (Bdiv mode_NE o (BofZ (Z.of_nat (length lab))))) by (rewrite HO1; apply fdiv_B).
    rewrite HD, fdiv_B, fsub_B. apply FIN.
    assert (I1 : inside 0 1 (Bdiv mode_NE o (BofZ (Z.of_nat (length lab))))).
    { apply div_inside; [done|lra|by rewrite O1|eapply above_le; [|exact AL]; lra|destruct AL as [->|[_ H]]; [by right|left; lra]]. }
    assert (I2 : inside 0 1 (Bdiv mode_NE b (BofZ batch))).
    { apply div_inside; [done|lra|eapply above_le; [|exact AB]; lra|eapply above_le; [|exact AB]; lra|done]. }
    by destruct (minus_inside _ _ I1 I2) as [M1 M2].
  - rewrite f_of_Z_B, fneg_B, fdiv_B. apply FIN.
    assert (I : inside (-1) 0 (Bdiv mode_NE (Bopp b) (BofZ batch))).
    { apply div_neg_inside; [done|lra|eapply above_le; [|exact AB]; lra|done]. }
    destruct I as [F [J1 J2]]. split; [done|lra].
Qed.

(** A sum of products in order. *)
Lemma fold_within {A} (f g : A -> float64) xs D W n : Forall (fun x => at_most D (f x) /\ at_most W (g x)) xs ->
  (length xs <= n)%nat -> (Z.of_nat n <= 2 ^ 50)%Z -> (1 <= n)%nat -> 1 <= D -> 1 <= W -> 4 * INR n * W * D <= lim ->
  at_most (4 * INR n * W * D) (fold_left (fun s x => fadd s (fmul (f x) (g x))) xs fzero).
Proof.
  intros HF Hn Hn2 Hn1 D1 W1 HL.
  assert (P : exists ps : list (bf * bf), Forall2 (fun x q => f x = B2SF q.1 /\ g x = B2SF q.2 /\ (is_finite q.1 = true /\ is_finite q.2 = true) /\
    Rabs (B2R q.1 * B2R q.2) <= D * W) xs ps).
  { clear -HF. induction HF as [|x xs [[Fx Bx] [Fy By]] _ [ps IH]]; [by exists []|]. destruct (finite_B _ Fx) as (a & Ea & Fa), (finite_B _ Fy) as (b & Eb & Fb).
    exists ((a, b) :: ps). constructor; [|done]. cbn. rewrite Ea, Eb, !val_B in *. split; [done|]. split; [done|]. split; [done|]. by apply rabs_mul. }
  destruct P as [ps P].
  assert (Q : fold_left (fun s x => fadd s (fmul (f x) (g x))) xs fzero =
              B2SF (fold_left (fun s p => Bplus mode_NE s (Bmult mode_NE p.1 p.2)) ps (B754_zero false))).
  { change fzero with (B2SF (B754_zero false : bf)). generalize (B754_zero false : bf). clear -P.
    induction P as [|x q xs ps (E1 & E2 & _) P IH]; intros s; [done|]. cbn [fold_left]. by rewrite E1, E2, fmul_B, fadd_B, IH. }
  rewrite Q. pose proof (Forall2_length _ _ _ P) as PL.
  assert (AB : sumR (map (fun p : bf * bf => Rabs (B2R p.1 * B2R p.2)) ps) <= INR (length ps) * (D * W)).
  { apply sumR_le. intros q Hq. apply elem_of_list_lookup in Hq as [i Hi]. by destruct (Forall2_lookup_r _ _ _ _ _ P Hi) as (x & _ & _ & _ & _ & H). }
  assert (PN : INR (length ps) * (D * W) <= INR n * (D * W)) by (apply Rmult_le_compat_r; [nra|apply le_INR; lia]).
  assert (N1 : 1 <= INR n) by (apply (le_INR 1); lia). assert (DW : 1 <= D * W) by nra. assert (NDW : 1 <= INR n * (D * W)) by nra.
  assert (PS : (Z.of_nat (S (length ps)) <= 2 ^ 51)%Z) by lia.
  destruct (dot_err ps) as [IF IE]; [|exact PS|lra|].
  { apply Forall_lookup. intros i q Hi. by destruct (Forall2_lookup_r _ _ _ _ _ P Hi) as (x & _ & _ & _ & H & _). }
  set (s := fold_left _ ps _) in *. split; [by apply B_finite|]. rewrite val_B.
  pose proof (total_abs (fun p : bf * bf => B2R p.1 * B2R p.2) ps) as TA. pose proof (total_pos (fun p : bf * bf => B2R p.1 * B2R p.2) ps) as TP. cbn beta in TA, TP.
  pose proof (err_small (length ps) _ TP PS) as ES. set (S0 := sumR (map (fun p : bf * bf => B2R p.1 * B2R p.2) ps)) in *.
  replace (B2R s) with ((B2R s - S0) + S0) by ring. eapply Rle_trans; [apply Rabs_triang|]. lra.
Qed.
Lemma weight_of_within vs W k q : Forall (fun v => Forall (at_most W) (v_w v)) vs -> 0 <= W -> at_most W (weight_of vs k q).
Proof.
  intros HV HW. assert (Z0 : at_most W fzero) by (split; [apply finite_fzero|rewrite val_fzero, Rabs_R0; lra]).
  unfold weight_of. destruct (vs !! Z.to_nat k) as [v|] eqn:Ev; cbn; [|done]. destruct (v_w v !! Z.to_nat q) as [w|] eqn:Ew; cbn; [|done].
  rewrite Forall_lookup in HV. specialize (HV _ _ Ev). cbn in HV. rewrite Forall_lookup in HV. by eapply HV.
Qed.
Lemma errors_within batch lvs lab outs ds W n : (1 <= batch)%Z -> Forall (nodes_within W) lvs ->
  (Z.of_nat n <= 2 ^ 50)%Z -> (1 <= n)%nat -> 1 <= W -> (4 * INR n * W) ^ length lvs <= lim ->
  (forall j out, outs !! j = Some out -> (length out <= n)%nat) -> length outs = S (length lvs) ->
  (forall out, outs !! length lvs = Some out -> Forall unit_range out) ->
  errors batch lvs lab outs ds ->
  forall j d, ds !! j = Some d -> Forall (at_most ((4 * INR n * W) ^ (length lvs - S j))) d.
Proof.
  intros HB HN Hn2 Hn1 W1 HL HO Hlo HU (Hlen & HE). set (G := 4 * INR n * W) in *.
  assert (N1 : 1 <= INR n) by (apply (le_INR 1); lia). assert (G1 : 1 <= G) by (unfold G; nra).
  intros j d Hd. remember (length ds - j)%nat as m eqn:Em. revert j d Em Hd. induction m as [|m IH]; intros j d Em Hd.
  { apply lookup_lt_Some in Hd. lia. }
  pose proof (lookup_lt_Some _ _ _ Hd) as Hj.
  destruct (lookup_lt_is_Some_2 outs (S j)) as [out Hout]; [lia|]. pose proof (HE _ _ _ Hout Hd) as ->.
  destruct (decide (S j = length lvs)) as [EL|NL].
  - assert (HX : lvs !! S j = None) by (apply lookup_ge_None; lia). rewrite HX, <- EL, Nat.sub_diag. cbn [Rpow_def.pow].
    apply Forall_map, Forall_forall. intros p Hp. apply output_error_within; [done| |done]. apply HU. by rewrite <- EL.
  - destruct (lookup_lt_is_Some_2 lvs (S j)) as [lv' Hlv']; [lia|]. destruct (lookup_lt_is_Some_2 outs (S (S j))) as [out' Hout']; [lia|].
    destruct (lookup_lt_is_Some_2 ds (S j)) as [d' Hd']; [lia|]. rewrite Hlv', Hout', Hd'.
    pose proof (IH (S j) d' ltac:(lia) Hd') as ID. apply Forall_map, Forall_forall. intros p _.
    assert (EQ : G ^ (length lvs - S j) = 4 * INR n * W * G ^ (length lvs - S (S j))).
    { replace (length lvs - S j)%nat with (S (length lvs - S (S j))) by lia. reflexivity. }
    assert (GP : 1 <= G ^ (length lvs - S (S j))) by (by apply pow_R1_Rle).
    assert (GL : G ^ (length lvs - S j) <= lim) by (eapply Rle_trans; [|exact HL]; apply Rle_pow; [done|lia]).
    unfold hidden_error. destruct (fleb _ _).
    { split; [apply finite_fzero|]. rewrite val_fzero, Rabs_R0, EQ. apply Rmult_le_pos; [fold G|]; lra. }
    rewrite EQ.
    assert (FE : forall acc, fold_left (fun acc '(q, d0) => fadd acc (fmul d0 (weight_of (lv_nodes lv') (iv_index q) (iv_index p)))) (zip out' d') acc =
      fold_left (fun s x => fadd s (fmul (snd x) (weight_of (lv_nodes lv') (iv_index (fst x)) (iv_index p)))) (zip out' d') acc).
    { generalize (zip out' d'). intros xs. induction xs as [|[q x] xs IHx]; intros acc; [done|]. cbn [fold_left fst snd]. apply IHx. }
    rewrite FE. apply (fold_within snd (fun x => weight_of (lv_nodes lv') (iv_index (fst x)) (iv_index p))); try done.
    + apply Forall_lookup. intros k [q x] Hk. cbn [fst snd]. apply lookup_zip_with_Some in Hk as (q' & x' & Hq & _ & Hx). injection Hq as -> ->. split.
      * rewrite Forall_lookup in ID. by eapply ID.
      * apply weight_of_within; [|lra]. rewrite Forall_lookup in HN. eapply Forall_impl; [exact (HN _ _ Hlv')|]. by intros v (_ & ? & _).
    + rewrite zip_with_length. transitivity (length out'); [lia|by eapply HO].
    + by rewrite <- EQ.
Qed.

(** * Gradients *)
(** [x] is the sum of at most [k] numbers, none above [Y]. *)
Definition summed (Y : R) (k : nat) (x : float64) : Prop := at_most (INR k * Y * (1 + u) ^ k) x.
Lemma summed_le Y k k' x : 0 <= Y -> (k <= k')%nat -> summed Y k x -> summed Y k' x.
Proof.
  intros HY Hk. apply at_most_le. pose proof u_pos. assert ((1 + u) ^ k <= (1 + u) ^ k') by (apply Rle_pow; [lra|done]).
  pose proof (pow_ge k). apply Rmult_le_compat; [apply Rmult_le_pos; [apply pos_INR|done]|lra| |done]. apply Rmult_le_compat_r; [done|]. by apply le_INR.
Qed.
Lemma summed_bound Y k x : 0 <= Y -> (Z.of_nat k <= 2 ^ 51)%Z -> summed Y k x -> at_most (2 * INR k * Y) x.
Proof.
  intros HY Hk. apply at_most_le. pose proof (pow_small k Hk). pose proof (pow_ge k). pose proof (pos_INR k).
  assert (0 <= INR k * Y) by (by apply Rmult_le_pos). assert (INR k * Y * (1 + u) ^ k <= INR k * Y * (4 / 3)) by (apply Rmult_le_compat_l; lra). lra.
Qed.
Lemma summed_add Y k x y : 0 <= Y -> (Z.of_nat k <= 2 ^ 51)%Z -> 2 * INR k * Y + Y <= lim -> summed Y k x -> at_most Y y -> summed Y (S k) (fadd x y).
Proof.
  intros HY Hk HL HX [Fy By]. destruct (summed_bound _ _ _ HY Hk HX) as [_ BX]. destruct HX as [Fx HX].
  pose proof (Rabs_triang (val x) (val y)) as T. assert (TL : Rabs (val x + val y) <= 4 * lim + 4) by (pose proof lim_ge1; lra). destruct (vadd x y Fx Fy TL) as (F & d & D & V). split; [done|]. rewrite V, Rabs_mult, S_INR.
  assert (D1 : Rabs (1 + d) <= 1 + u). { eapply Rle_trans; [apply Rabs_triang|]. rewrite Rabs_R1. lra. }
  pose proof (pow_ge k) as P. pose proof u_pos. pose proof (pos_INR k). cbn [Rpow_def.pow].
  apply Rle_trans with ((INR k * Y * (1 + u) ^ k + Y) * (1 + u)); [apply Rmult_le_compat; [apply Rabs_pos..|lra|lra]|].
  replace ((INR k + 1) * Y * ((1 + u) * (1 + u) ^ k)) with ((INR k * Y * (1 + u) ^ k + Y * (1 + u) ^ k) * (1 + u)) by ring.
  apply Rmult_le_compat_r; [lra|]. assert (Y * 1 <= Y * (1 + u) ^ k) by (apply Rmult_le_compat_l; lra). lra.
Qed.
Lemma product_within D A x y : at_most D x -> at_most A y -> 1 <= D -> 1 <= A -> D * A <= lim -> at_most (2 * (D * A)) (fmul x y).
Proof.
  intros [Fx Bx] [Fy By] D1 A1 HL. pose proof lim_ge1. pose proof (rabs_mul _ _ _ _ Bx By) as B. assert (DA : 1 <= D * A) by nra.
  destruct (vmul x y Fx Fy ltac:(lra)) as (F & d & e & Hd & He & V). split; [done|]. rewrite V. eapply Rle_trans; [apply Rabs_triang|].
  apply near1 in Hd. pose proof (rabs_mul _ 1.1 _ (1 + d) B ltac:(apply Rabs_le; lra)). pose proof eta_kap. assert (kap * kap <= 0.1) by (unfold kap; lra). lra.
Qed.
Lemma accumulate_summed Y (f : float64 -> float64) xs cur k c : 0 <= Y -> Forall (summed Y k) xs -> Forall (fun p => at_most Y (f (iv_value p))) cur ->
  (length cur <= c)%nat -> (Z.of_nat (k + c) <= 2 ^ 51)%Z -> 2 * INR (k + c) * Y + Y <= lim ->
  Forall (summed Y (k + c)) (accumulate f xs cur).
Proof.
  intros HY HX HC. revert xs k c HX. unfold accumulate. induction HC as [|q cur Hq _ IH]; intros xs k c HX Hl Hk HL; cbn [fold_left length] in *.
  - eapply Forall_impl; [exact HX|]. intros x. apply summed_le; [done|lia].
  - destruct c as [|c]; [lia|]. replace (k + S c)%nat with (S k + c)%nat in * by lia. apply IH; [|lia|done|done].
    assert (HK : 2 * INR k * Y + Y <= lim).
    { eapply Rle_trans; [|exact HL]. apply Rplus_le_compat_r. apply Rmult_le_compat_r; [done|]. apply Rmult_le_compat_l; [lra|]. apply le_INR. lia. }
    apply Forall_lookup. intros i x Hi. rewrite Forall_lookup in HX. destruct (decide (i = Z.to_nat (iv_index q))) as [->|Hne].
    + rewrite list_lookup_alter in Hi. apply fmap_Some in Hi as (y & Hy & ->). apply summed_add; [done|lia|done|by eapply HX|done].
    + rewrite list_lookup_alter_ne in Hi by done. apply (summed_le _ k); [done|lia|]. by eapply HX.
Qed.
(** Passes whose errors and inputs at layer [j] have products of at most [Y / 2]. *)
Definition pass_within (n : nat) (D A : R) (j : nat) (p : pass) : Prop :=
  Forall (fun q => at_most A (iv_value q)) (inputs_of p j) /\ (length (inputs_of p j) <= n)%nat /\
  forall k d, error_of p j k = Some d -> at_most D d.
Lemma weight_gradient_summed ps n M D A j k t c : Forall (pass_within n D A j) ps -> (length ps <= M)%nat -> 1 <= D -> 1 <= A ->
  (Z.of_nat (c + M * n) <= 2 ^ 51)%Z -> 2 * INR (c + M * n) * (2 * (D * A)) + 2 * (D * A) <= lim ->
  Forall (summed (2 * (D * A)) c) t -> Forall (summed (2 * (D * A)) (c + M * n)) (weight_gradient ps j k t).
Proof.
  intros HP Hl D1 A1 Hk HL HT. assert (DA : 1 <= D * A) by nra. unfold weight_gradient. revert M t c Hl Hk HL HT.
  induction HP as [|p ps (P1 & P2 & P3) _ IH]; intros M t c Hl Hk HL HT; cbn [fold_left length] in *.
  - eapply Forall_impl; [exact HT|]. intros x. apply summed_le; [lra|lia].
  - destruct M as [|M]; [lia|]. replace (c + S M * n)%nat with ((c + n) + M * n)%nat in * by lia. apply IH; [lia|done|done|].
    assert (HB : 2 * INR (c + n) * (2 * (D * A)) + 2 * (D * A) <= lim).
    { eapply Rle_trans; [|exact HL]. apply Rplus_le_compat_r. apply Rmult_le_compat_r; [lra|]. apply Rmult_le_compat_l; [lra|]. apply le_INR. lia. }
    destruct (error_of p j k) as [d|] eqn:E1.
    + apply accumulate_summed; [lra|done| |done|lia|done]. eapply Forall_impl; [exact P1|]. intros q Hq. apply product_within; [by eapply P3|done..|].
      pose proof (pos_INR (c + n)). assert (0 <= 2 * INR (c + n) * (2 * (D * A))) by (repeat apply Rmult_le_pos; lra). lra.
    + eapply Forall_impl; [exact HT|]. intros x. apply summed_le; [lra|lia].
Qed.
Lemma bias_gradient_summed ps n M D A j k t c : Forall (pass_within n D A j) ps -> (length ps <= M)%nat -> 1 <= D ->
  (Z.of_nat (c + M) <= 2 ^ 51)%Z -> 2 * INR (c + M) * D + D <= lim ->
  summed D c t -> summed D (c + M) (bias_gradient ps j k t).
Proof.
  intros HP Hl D1 Hk HL HT. unfold bias_gradient. revert M t c Hl Hk HL HT.
  induction HP as [|p ps (P1 & P2 & P3) _ IH]; intros M t c Hl Hk HL HT; cbn [fold_left length] in *.
  - eapply summed_le; [lra| |exact HT]. lia.
  - destruct M as [|M]; [lia|]. replace (c + S M)%nat with (S c + M)%nat in * by lia. apply IH; [lia|done|done|].
    destruct (error_of p j k) as [d|] eqn:E1.
    + apply summed_add; [lra|lia| |done|by eapply P3].
      eapply Rle_trans; [|exact HL]. apply Rplus_le_compat_r. apply Rmult_le_compat_r; [lra|]. apply Rmult_le_compat_l; [lra|]. apply le_INR. lia.
    + eapply summed_le; [lra| |exact HT]. lia.
Qed.
