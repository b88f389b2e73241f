(** The computed scores of a dense network against the exact ones. *)
From Verif.Spec Require Import NodeSpec BatchSpec DenseSpec RoundSpec ScoreSpec.
From Verif.Proofs Require Import FloatReal FloatSub FloatRange BaseProofs RoundProofs ScaleFloat BoundFloat FloatOrder DenseProofs BoundPass.
From Coq Require Import Reals Psatz.
From Flocq Require Import Core BinarySingleNaN.
Local Notation u := u_round.
Local Open Scope R_scope.
Notation node := (NodeType * list float64 * float64)%type.

Definition near (e : R) (cur : list Pair) (xs : inputs) : Prop :=
  Forall2 (fun p ix => iv_index p = ix.1 /\ finite_number (iv_value p) /\ Rabs (val (iv_value p) - ix.2) <= e) cur xs.

Lemma near_size w e cur xs : near e cur xs ->
  sumR (map (fun p => Rabs (val (weight_for w p) * val (iv_value p))) cur) <=
    sumR (map (fun ix => Rabs (input_weight w ix.1 * ix.2)) xs) + sumR (map (fun ix => Rabs (input_weight w ix.1)) xs) * e /\
  Rabs (sumR (map (fun p => val (weight_for w p) * val (iv_value p)) cur) - sumR (map (fun ix => input_weight w ix.1 * ix.2) xs)) <=
    sumR (map (fun ix => Rabs (input_weight w ix.1)) xs) * e.
Proof.
  induction 1 as [|p [i x] cur xs (Hi & _ & Hx) _ [IH1 IH2]]; cbn [map sumR fold_right].
  - split; [lra|]. rewrite Rminus_0_r, Rabs_R0. lra.
  - cbn [fst snd] in *. change (fold_right Rplus 0) with sumR in *.
    assert (HW : val (weight_for w p) = input_weight w i) by (unfold weight_for, input_weight; by rewrite Hi). rewrite HW.
    set (a := input_weight w i) in *. set (y := val (iv_value p)) in *.
    assert (D : Rabs (a * y - a * x) <= Rabs a * e).
    { replace (a * y - a * x) with (a * (y - x)) by ring. rewrite Rabs_mult. apply Rmult_le_compat_l; [apply Rabs_pos|done]. }
    split.
    + assert (Rabs (a * y) <= Rabs (a * x) + Rabs a * e).
      { replace (a * y) with (a * x + (a * y - a * x)) by ring. eapply Rle_trans; [apply Rabs_triang|]. lra. }
      rewrite Rmult_plus_distr_r. lra.
    + match goal with |- Rabs (?p + ?q - (?r + ?s)) <= _ => replace (p + q - (r + s)) with ((p - r) + (q - s)) by ring end.
      eapply Rle_trans; [apply Rabs_triang|]. rewrite Rmult_plus_distr_r. lra.
Qed.
Lemma sum_abs_pos {X} (f : X -> R) xs : 0 <= sumR (map (fun x => Rabs (f x)) xs).
Proof. induction xs as [|x xs IH]; cbn; [lra|]. pose proof (Rabs_pos (f x)). unfold sumR in IH. lra. Qed.
Lemma gamma_pos k : (Z.of_nat k <= 2 ^ 51)%Z -> 0 <= gamma k <= / 2.
Proof.
  intros H. unfold gamma. pose proof (small_k k H) as S0. pose proof u_pos. pose proof (pos_INR k).
  assert (0 <= INR k * u) by nra. set (t := INR k * u) in *. split.
  - apply Rmult_le_pos; [lra|]. apply Rlt_le, Rinv_0_lt_compat. lra.
  - apply (Rmult_le_reg_r (1 - t)); [lra|]. unfold Rdiv. rewrite Rmult_assoc, Rinv_l by lra. lra.
Qed.
Lemma eta_sum k : (Z.of_nat k <= 2 ^ 51)%Z -> 0 <= INR k * eta_round <= / 2.
Proof.
  intros H. rewrite eta_half. pose proof (small_k k H) as S0. pose proof eta_pos. pose proof u_pos. pose proof (pos_INR k).
  assert (eta <= u / 2). { rewrite u_bpow. unfold eta. apply Rle_trans with (bpow radix2 (-60)); [apply bpow_le; lia|].
    change (-60)%Z with (-8 + -52)%Z. rewrite bpow_plus. change (-53 + 1)%Z with (-52)%Z. change (bpow radix2 (-8)) with (/ 256). pose proof (bpow_gt_0 radix2 (-52)). lra. }
  split; [nra|]. nra.
Qed.
Lemma relu_lip a b : Rabs (Rmax 0 a - Rmax 0 b) <= Rabs (a - b).
Proof. unfold Rmax. destruct (Rle_dec 0 a), (Rle_dec 0 b); unfold Rabs; repeat destruct Rcase_abs; lra. Qed.

Lemma node_near e cur xs (nd : node) : 0 <= e -> near e cur xs -> (Z.of_nat (length xs) <= 2 ^ 50)%Z ->
  Forall finite_number nd.1.2 -> finite_number nd.2 -> exact_size xs nd + gain xs nd * e <= 2 ^ 1000 ->
  finite_number (node_value cur nd) /\ Rabs (val (node_value cur nd) - exact_value xs nd) <= node_error xs e nd /\
  Rabs (val (node_value cur nd)) <= 2 * lim /\ 0 <= node_error xs e nd.
Proof.
  destruct nd as [[ty w] b]. cbn [fst snd]. intros E0 HN HL HW HB HS. pose proof (Forall2_length _ _ _ HN) as LEN.
  destruct (near_size w _ _ _ HN) as [N1 N2]. unfold node_error. cbn [exact_size gain] in *.
  set (G := sumR (map (fun ix : Z * R => Rabs (input_weight w ix.1)) xs)) in *.
  assert (G0 : 0 <= G) by apply (sum_abs_pos (fun ix : Z * R => input_weight w ix.1)).
  assert (GE : 0 <= G * e) by nra.
  assert (MG : magnitude w b cur <= sumR (map (fun ix => Rabs (input_weight w ix.1 * ix.2)) xs) + Rabs (val b) + G * e) by (unfold magnitude; lra).
  set (T := sumR (map (fun ix => Rabs (input_weight w ix.1 * ix.2)) xs) + Rabs (val b) + G * e) in *.
  destruct (sum_err w b cur) as [F EB]; [done..| |lia|lra|].
  { clear -HN. induction HN as [|p ix cur xs (_ & Hf & _) _ IH]; by constructor. }
  assert (M0 : 0 <= magnitude w b cur).
  { unfold magnitude. pose proof (sum_abs_pos (fun p => val (weight_for w p) * val (iv_value p)) cur). pose proof (Rabs_pos (val b)). lra. }
  assert (EX : Rabs (exact_sum w b cur) <= magnitude w b cur).
  { unfold exact_sum, magnitude. eapply Rle_trans; [apply Rabs_triang|]. apply Rplus_le_compat_r. apply total_abs. }
  change (fold_left _ cur fzero) with (dot w cur) in F, EB.
  rewrite LEN in EB. replace (length xs + 2)%nat with (S (S (length xs))) by lia. replace (length xs + 1)%nat with (S (length xs)) by lia.
  pose proof (gamma_pos (S (S (length xs))) ltac:(lia)) as [GA GB]. pose proof (eta_sum (S (length xs)) ltac:(lia)) as [EA EC].
  set (g := gamma _) in *. set (h := INR _ * eta_round) in *.
  assert (GM : g * magnitude w b cur <= g * T) by nra. assert (GM2 : g * magnitude w b cur <= / 2 * magnitude w b cur) by nra.
  set (X := sumR (map (fun ix => input_weight w ix.1 * ix.2) xs) + val b) in *.
  assert (ED : Rabs (exact_sum w b cur - X) <= G * e).
  { unfold exact_sum, X. match goal with |- Rabs (?p + ?q - (?r + ?q)) <= _ => replace (p + q - (r + q)) with (p - r) by ring end. exact N2. }
  set (z := fadd (dot w cur) b) in *.
  assert (EZ : Rabs (val z - X) <= G * e + g * T + h).
  { replace (val z - X) with ((val z - exact_sum w b cur) + (exact_sum w b cur - X)) by ring. eapply Rle_trans; [apply Rabs_triang|]. lra. }
  assert (BZ : Rabs (val z) <= 2 * lim).
  { replace (val z) with ((val z - exact_sum w b cur) + exact_sum w b cur) by ring. eapply Rle_trans; [apply Rabs_triang|]. pose proof lim_ge1 as LG. rewrite lim_pow in *. lra. }
  assert (NN : 0 <= G * e + g * T + h) by (eapply Rle_trans; [apply Rabs_pos|exact EZ]).
  cbn [node_value exact_value]. fold z X.
  assert (OTHER : ty <> ReLU -> (match ty with ReLU => if fltb z fzero then fzero else z | _ => z end) = z /\ activation_of ty X = X) by (by destruct ty).
  assert (D : ty = ReLU \/ ty <> ReLU) by (destruct ty; first [left; reflexivity|right; discriminate]). destruct D as [-> | NE].
  - cbn [activation_of]. destruct (fltb z fzero) eqn:LT.
    + pose proof (val_neg z F LT). split; [apply finite_fzero|]. rewrite val_fzero. split; [|split; [rewrite Rabs_R0; pose proof lim_ge1; lra|done]].
      eapply Rle_trans; [|exact EZ]. replace 0 with (Rmax 0 (val z)) at 1 by (apply Rmax_left; lra). apply relu_lip.
    + pose proof (val_nonneg z F LT). split; [done|]. split; [|by split].
      eapply Rle_trans; [|exact EZ]. replace (val z) with (Rmax 0 (val z)) at 1 by (apply Rmax_right; lra). apply relu_lip.
  - destruct (OTHER NE) as [-> ->]. split; [done|]; split; [exact EZ|]; by split.
Qed.

Definition good (xs : inputs) (e : R) (nd : node) : Prop :=
  Forall finite_number nd.1.2 /\ finite_number nd.2 /\ exact_size xs nd + gain xs nd * e <= 2 ^ 1000.
Lemma max_ge rs : forall r, r ∈ rs -> r <= fold_right Rmax 0 rs.
Proof.
  induction rs as [|x rs IH]; intros r H; [by apply elem_of_nil in H|]. cbn. apply elem_of_cons in H as [->|H]; [apply Rmax_l|].
  eapply Rle_trans; [by apply IH|apply Rmax_r].
Qed.
Lemma max_ge0 rs : 0 <= fold_right Rmax 0 rs.
Proof. induction rs as [|x rs IH]; cbn; [lra|]. eapply Rle_trans; [exact IH|apply Rmax_r]. Qed.
(** The values of all the nodes of a layer, before softmax. *)
Lemma nodes_near e cur xs (l : NodeType * list node) : 0 <= e -> near e cur xs -> (Z.of_nat (length xs) <= 2 ^ 50)%Z ->
  Forall (good xs e) l.2 ->
  Forall2 (fun a x => finite_number a /\ Rabs (val a - x) <= layer_error xs e l /\ Rabs (val a) <= 2 * lim)
    (map (node_value cur) l.2) (map (exact_value xs) l.2) /\ 0 <= layer_error xs e l.
Proof.
  intros E0 HN HL HG. split; [|apply max_ge0].
  assert (HM : forall nd, nd ∈ l.2 -> node_error xs e nd <= layer_error xs e l).
  { intros nd H. apply max_ge. apply elem_of_list_fmap. by exists nd. }
  revert HG HM. generalize (layer_error xs e l) as M. intros M. generalize l.2 as ns. induction 1 as [|nd ns (G1 & G2 & G3) _ IH]; intros HM; [constructor|].
  constructor; [|apply IH; intros; apply HM; by right].
  destruct (node_near e cur xs nd E0 HN HL G1 G2 G3) as (A & B & C & _). split; [done|]. split; [|done].
  eapply Rle_trans; [exact B|]. apply HM. left.
Qed.
Lemma zip_near M is_ (as_ : list float64) xs :
  Forall2 (fun a x => finite_number a /\ Rabs (val a - x) <= M /\ Rabs (val a) <= 2 * lim) as_ xs ->
  near M (zip_with mkPair is_ as_) (zip is_ xs).
Proof.
  intros H. revert is_. induction H as [|a x as_ xs (A & B & _) _ IH]; intros [|i is_]; try constructor; [done|]. apply IH.
Qed.
Lemma hidden_near exp e cur xs l : is_softmax l.1 = false -> 0 <= e -> near e cur xs -> (Z.of_nat (length xs) <= 2 ^ 50)%Z ->
  Forall (good xs e) l.2 -> near (layer_error xs e l) (dense_layer exp l cur) (exact_layer xs l) /\ 0 <= layer_error xs e l.
Proof.
  intros HS E0 HN HL HG. destruct (nodes_near e cur xs l E0 HN HL HG) as [H H0]. split; [|done].
  unfold dense_layer, exact_layer. rewrite HS. by apply zip_near.
Qed.
Lemma layers_near exp hidden out : forall cur xs e, Forall (fun l => is_softmax l.1 = false) hidden -> 0 <= e -> near e cur xs ->
  tame (hidden ++ [out]) xs e ->
  let st := fold_left (fun st l => (exact_layer st.1 l, layer_error st.1 st.2 l)) hidden (xs, e) in
  near st.2 (fold_left (fun cur l => dense_layer exp l cur) hidden cur) st.1 /\ 0 <= st.2 /\
  (Z.of_nat (length st.1) <= 2 ^ 50)%Z /\ Forall (good st.1 st.2) out.2.
Proof.
  induction hidden as [|l hidden IH]; intros cur xs e HS E0 HN HT; cbn [fold_left app tame fst snd] in *.
  - destruct HT as (HL & HG & _). by repeat split.
  - destruct HT as (HL & HG & HT). inversion HS as [|? ? HS1 HS2]; subst.
    destruct (hidden_near exp e cur xs l HS1 E0 HN HL HG) as [N0 N1]. by apply IH.
Qed.
Lemma features_near feats : Forall (fun p => finite_number (iv_value p)) feats -> near 0 feats (exact_inputs feats).
Proof. induction 1 as [|p feats H _ IH]; [constructor|]. constructor; [|exact IH]. cbn. split; [done|]. split; [done|]. rewrite Rminus_eq_0, Rabs_R0. lra. Qed.

(** * The last layer *)
Lemma fmax_spec as_ : Forall finite_number as_ -> forall m0, finite_number m0 ->
  let mx := fold_left (fun mx a => if fltb mx a then a else mx) as_ m0 in
  finite_number mx /\ val m0 <= val mx /\ Forall (fun a => val a <= val mx) as_ /\ (mx = m0 \/ mx ∈ as_).
Proof.
  induction 1 as [|a as_ Ha _ IH]; intros m0 F0; cbn [fold_left].
  - repeat split; [apply F0..|lra|constructor|by left].
  - rewrite fltb_val by done. destruct (Rlt_bool_spec (val m0) (val a)) as [L|L].
    + destruct (IH a Ha) as (I1 & I2 & I3 & I4). split; [done|]. split; [lra|]. split; [by constructor|]. right.
      destruct I4 as [E|I4]; [rewrite E; left|by right].
    + destruct (IH m0 F0) as (I1 & I2 & I3 & I4). split; [done|]. split; [lra|]. split; [constructor; [lra|done]|].
      destruct I4 as [E|I4]; [by left|right; by right].
Qed.
Lemma best_fold q out : forall best, Forall (fun p => p = q \/ fltb (iv_value p) (iv_value q) = true) (best :: out) -> q ∈ best :: out ->
  fold_left (fun best p => if fltb (iv_value best) (iv_value p) then p else best) out best = q.
Proof.
  induction out as [|p out IH]; intros best HF HQ; cbn [fold_left].
  - by apply elem_of_list_singleton in HQ.
  - inversion HF as [|? ? H1 HF1]; subst. inversion HF1 as [|? ? H2 HF2]; subst. destruct (fltb (iv_value best) (iv_value p)) eqn:L.
    + apply IH; [by constructor|]. apply elem_of_cons in HQ as [<-|HQ]; [|done]. destruct H2 as [->|H2]; [left|].
      apply fltb_asym in H2. congruence.
    + apply IH; [by constructor|]. apply elem_of_cons in HQ as [<-|HQ]; [left|]. apply elem_of_cons in HQ as [<-|HQ]; [|by right].
      destruct H1 as [->|H1]; [left|]. congruence.
Qed.
Lemma vsub_near x y d : finite_number x -> finite_number y -> Rabs (val x) <= 2 * lim -> Rabs (val y) <= 2 * lim -> 0 <= d -> val x + 2 * d <= val y ->
  finite_number (fsub x y) /\ val (fsub x y) <= - d.
Proof.
  intros (a & -> & Fa)%finite_B (b & -> & Fb)%finite_B. rewrite !val_B. rewrite fsub_B, val_B. intros HA HB D0 HD.
  destruct (minus_fin a b Fa Fb) as [F V].
  { unfold Rminus. eapply Rle_trans; [apply Rabs_triang|]. rewrite Rabs_Ropp. lra. }
  split; [by apply B_finite|]. rewrite V. destruct (rnd_plus_err a (Bopp b)) as (r & Hr & E). rewrite B2R_Bopp in E.
  unfold Rminus. rewrite E. apply Rabs_le_inv in Hr. pose proof u_tiny. assert (/ 2 <= 1 + r) by lra. nra.
Qed.
Lemma vsub_self x : finite_number x -> finite_number (fsub x x) /\ val (fsub x x) = 0.
Proof.
  intros (a & -> & Fa)%finite_B. rewrite fsub_B, val_B. destruct (minus_fin a a Fa Fa) as [F V].
  { rewrite Rminus_eq_0, Rabs_R0. pose proof lim_ge1. lra. }
  split; [by apply B_finite|]. rewrite V, Rminus_eq_0. apply round_0. apply valid_rnd_N.
Qed.
Lemma vsub_zero x y : finite_number x -> finite_number y -> val y = 0 -> Rabs (val x) <= 2 * lim -> finite_number (fsub x y) /\ val (fsub x y) = val x.
Proof.
  intros (a & -> & Fa)%finite_B (b & -> & Fb)%finite_B. rewrite !val_B, fsub_B, val_B. intros H0 HB.
  destruct (minus_fin a b Fa Fb) as [F V]; [rewrite H0, Rminus_0_r; pose proof lim_ge1; lra|].
  split; [by apply B_finite|]. rewrite V, H0, Rminus_0_r. apply round_generic; [apply valid_rnd_N|]. apply generic_format_B2R.
Qed.
(** Softmax keeps the winner. *)
Lemma softmax_keeps exp d as_ ak : exp_separates exp d -> 0 <= d -> Forall (fun a => finite_number a /\ Rabs (val a) <= 2 * lim) as_ ->
  ak ∈ as_ -> -600 <= val ak -> (forall a, a ∈ as_ -> a = ak \/ val a + 2 * d <= val ak) ->
  let mx := fold_left (fun mx a => if fltb mx a then a else mx) as_ fzero in
  forall a, a ∈ as_ -> val a + 2 * d <= val ak -> fltb (exp (fsub a mx)) (exp (fsub ak mx)) = true.
Proof.
  intros HE D0 HF HK HL HW mx a Ha HD. rewrite Forall_forall in HF. destruct (HF _ Ha) as [Fa Ba]. destruct (HF _ HK) as [Fk Bk].
  destruct (fmax_spec as_ ltac:(apply Forall_forall; intros x Hx; by apply HF) fzero finite_fzero) as (M1 & M2 & M3 & M4). fold mx in M1, M2, M3, M4.
  rewrite val_fzero in M2. rewrite Forall_forall in M3. destruct (Rle_lt_dec 0 (val ak)) as [P|P].
  - assert (VM : val mx = val ak).
    { apply Rle_antisym; [|by apply M3]. destruct M4 as [->|M4]; [by rewrite val_fzero|]. destruct (HW _ M4) as [->|H]; lra. }
    assert (BM : Rabs (val mx) <= 2 * lim) by (by rewrite VM).
    destruct (vsub_near a mx d) as [S1 S2]; [done..|lra|]. 
    assert (SK : finite_number (fsub ak mx) /\ val (fsub ak mx) = 0).
    { destruct (finite_B _ Fk) as (b & -> & Fb). destruct (finite_B _ M1) as (c & Ec & Fc). rewrite Ec in *. rewrite !val_B in *. rewrite fsub_B, val_B.
      destruct (minus_fin b c Fb Fc) as [F V]; [rewrite VM, Rminus_eq_0, Rabs_R0; pose proof lim_ge1; lra|].
      split; [by apply B_finite|]. rewrite V, VM, Rminus_eq_0. apply round_0. apply valid_rnd_N. }
    destruct SK as [K1 K2]. apply HE; [done..| |]; rewrite K2; lra.
  - assert (VM : val mx = 0).
    { apply Rle_antisym; [|done]. destruct M4 as [->|M4]; [by rewrite val_fzero; lra|]. destruct (HW _ M4) as [->|H]; lra. }
    destruct (vsub_zero a mx) as [S1 S2]; [done..|]. destruct (vsub_zero ak mx) as [K1 K2]; [done..|].
    apply HE; [done..| |]; rewrite K2; [lra|rewrite S2; lra].
Qed.
Lemma elem_zip {A B} (xs : list A) (ys : list B) a b : (a, b) ∈ zip xs ys -> exists i, xs !! i = Some a /\ ys !! i = Some b.
Proof. intros [i H]%elem_of_list_lookup. apply lookup_zip_with_Some in H as (x & y & E & H1 & H2). injection E as -> ->. by exists i. Qed.
Lemma zip_elem {A B} (xs : list A) (ys : list B) a b i : xs !! i = Some a -> ys !! i = Some b -> (a, b) ∈ zip xs ys.
Proof. intros H1 H2. apply elem_of_list_lookup. exists i. apply lookup_zip_with_Some. by exists a, b. Qed.
Lemma winner_class exp d ps feats k : softmax_last ps -> exp_separates exp d -> 0 <= d -> tame ps (exact_inputs feats) 0 ->
  Forall (fun p => finite_number (iv_value p)) feats -> clear_winner d ps feats k -> dense_class exp ps feats = k.
Proof.
  intros (hidden & out & -> & HS) HE D0 HT HF HC. unfold clear_winner, scores in HC. unfold dense_class.
  rewrite fold_left_app. rewrite fold_left_app in HC. cbn [fold_left] in *.
  destruct (layers_near exp hidden (Softmax, out) feats (exact_inputs feats) 0 HS ltac:(lra) (features_near _ HF) HT) as (L1 & L2 & L3 & L4).
  destruct (fold_left _ hidden (exact_inputs feats, 0)) as [xs e] eqn:EST. cbn [fst snd] in *.
  set (cur := fold_left _ hidden feats) in *. destruct (nodes_near e cur xs (Softmax, out) L2 L1 L3 L4) as [N M0]. cbn [fst snd] in *.
  set (M := layer_error xs e (Softmax, out)) in *. destruct HC as (xk & HK & HL & HO). unfold exact_layer in HK, HO. cbn [fst snd] in HK, HO.
  unfold dense_layer. cbn [fst snd is_softmax].
  set (as_ := map (node_value cur) out) in *. set (is_ := seqZ 0 (Z.of_nat (length out))) in *.
  set (mx := fold_left _ as_ fzero).
  apply elem_zip in HK as (kk & K1 & K2). destruct (Forall2_lookup_r _ _ _ _ _ N K2) as (ak & K3 & K4 & K5 & K6).
  apply Rabs_le_inv in K5.
  assert (GAP : forall j i a, is_ !! j = Some i -> as_ !! j = Some a -> j <> kk -> val a + 2 * d <= val ak).
  { intros j i a H1 H2 H3. destruct (Forall2_lookup_l _ _ _ _ _ N H2) as (x & X1 & _ & X2 & _). apply Rabs_le_inv in X2.
    assert (i <> k). { intros ->. apply H3. unfold is_ in H1, K1. apply lookup_seqZ in H1 as [H1 _]. apply lookup_seqZ in K1 as [K1 _]. lia. }
    pose proof (HO i x (zip_elem _ _ _ _ _ H1 X1) H). lra. }
  assert (IS : forall j a, as_ !! j = Some a -> exists i, is_ !! j = Some i).
  { intros j a H. apply lookup_lt_Some in H. unfold as_ in H. rewrite map_length in H. exists (0 + Z.of_nat j)%Z. unfold is_. apply lookup_seqZ. lia. }
  assert (SK : forall j i a, is_ !! j = Some i -> as_ !! j = Some a -> j <> kk -> fltb (exp (fsub a mx)) (exp (fsub ak mx)) = true).
  { intros j i a H1 H2 H3. apply (softmax_keeps exp d as_ ak HE D0).
    - apply Forall_lookup. intros j' a' H'. destruct (Forall2_lookup_l _ _ _ _ _ N H') as (x & _ & Y1 & _ & Y2). by split.
    - by apply elem_of_list_lookup_2 in K3.
    - lra.
    - intros a' [j' H']%elem_of_list_lookup. destruct (decide (j' = kk)) as [->|NE]; [left; congruence|right]. destruct (IS _ _ H') as [i' Hi']. by apply (GAP j' i' a').
    - by apply elem_of_list_lookup_2 in H2.
    - by apply (GAP j i a). }
  set (q := mkPair k (exp (fsub ak mx))).
  set (outs := zip_with mkPair is_ (map (fun a => exp (fsub a mx)) as_)).
  assert (Q : q ∈ outs).
  { apply elem_of_list_lookup. exists kk. apply lookup_zip_with_Some. exists k, (exp (fsub ak mx)). split; [done|]. split; [done|].
    change (map ?f as_) with (f <$> as_). rewrite list_lookup_fmap, K3. done. }
  assert (AL : Forall (fun p => p = q \/ fltb (iv_value p) (iv_value q) = true) outs).
  { apply Forall_lookup. intros j p H. apply lookup_zip_with_Some in H as (i & y & -> & H1 & H2).
    change (map ?f as_) with (f <$> as_) in H2. rewrite list_lookup_fmap in H2. destruct (as_ !! j) as [a|] eqn:Ha; [|done]. injection H2 as <-.
    destruct (decide (j = kk)) as [->|NE]; [left; unfold q; congruence|right]. cbn. by apply (SK j i a). }
  destruct outs as [|p outs]; [by apply elem_of_nil in Q|]. by rewrite (best_fold q outs p AL Q).
Qed.
Lemma winner_predict E m c n nv d ks exs cnt n' m' :
  live E m c n nv -> dense_prediction n -> network_PredictClass E c n exs m = Ok ((cnt, n'), m') ->
  softmax_last (parameters_of (nv_layers nv)) -> exp_separates (e_exp E) d -> 0 <= d ->
  Forall2 (fun ex k => Forall (fun p => finite_number (iv_value p)) (features ex) /\
    tame (parameters_of (nv_layers nv)) (exact_inputs (features ex)) 0 /\ clear_winner d (parameters_of (nv_layers nv)) (features ex) k) exs ks ->
  cnt = hits exs ks.
Proof.
  intros L D H HS HE D0 HF. rewrite (dense_predict _ _ _ _ _ _ _ _ _ L D H). f_equal. clear H L.
  induction HF as [|ex k exs' ks' (H1 & H2 & H3) _ IH]; [done|]. cbn [map]. rewrite IH. f_equal.
  by apply (winner_class (e_exp E) d).
Qed.
