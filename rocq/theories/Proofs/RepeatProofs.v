(** The clear winner is predicted. *)
From Verif.Proofs Require Import BaseProofs NetLive NetInfer DenseProofs.
From Verif.Spec Require Import LayerSpec InferSpec RepeatSpec.
From Coq Require Import Lia.
Local Open Scope Z_scope.

Lemma found_unique E h t cur a b : found E h t cur a -> found E h t cur b -> a = b.
Proof.
  intros (c1 & b1 & H1 & H2 & H3) (c2 & b2 & G1 & G2 & G3).
  assert (c1 = c2) as ->.
  { unfold input_codes in *. destruct (e_Hash E); [..|done]; destruct H1 as (x & Hx & Hc); destruct G1 as (y & Hy & Gc); congruence. }
  congruence.
Qed.

Lemma dense_upto E lvs sps off label feats outs n :
  (n <= length lvs)%nat ->
  (forall j, (j < n)%nat -> exists sp, sps !! (off + j)%nat = Some sp /\ feqb sp fone = true) ->
  inference E lvs sps off label feats outs ->
  forall j, (j <= n)%nat ->
  outs !! j = Some (fold_left (fun cur l => dense_layer (e_exp E) l cur) (parameters_of (take j lvs)) feats).
Proof.
  intros Hn HD (HL & H0 & HI) j. induction j as [|j IH]; intros Hj; [by rewrite H0|].
  destruct (lookup_lt_is_Some_2 lvs j) as [lv Hlv]; [lia|]. destruct (lookup_lt_is_Some_2 outs (S j)) as [out Hout]; [lia|].
  specialize (IH ltac:(lia)). destruct (HI j lv _ out Hlv IH Hout) as (sp & ids & Hsp & HC & HO).
  destruct (HD j) as (sp' & Hsp' & Hf); [lia|]. rewrite Hsp in Hsp'. injection Hsp' as <-.
  unfold chosen in HC. rewrite Hf in HC. subst ids. apply dense_output in HO. rewrite Hout, HO. f_equal.
  rewrite (take_S_r _ _ _ Hlv). unfold parameters_of. rewrite map_app, fold_left_app. done.
Qed.

Lemma top_of (sc : Z -> float64) (ids : list Z) w mx :
  w ∈ ids -> (forall j, j ∈ ids -> j <> w -> fltb (sc j) (sc w) = true) -> greatest (map sc ids) mx ->
  mx = if fltb fzero (sc w) then sc w else fzero.
Proof.
  intros Hw Hlt (q & (v0 & Hv0 & Hs) & Hmx). injection Hv0 as <-. cbn [is_nan fzero] in Hs.
  destruct Hs as (v & Hv & _ & Hmax & Hfirst). rewrite Hmx in Hv. injection Hv as <-.
  apply elem_of_list_lookup in Hw as (i & Hi).
  assert (Hmw : fltb mx (sc w) = false). { apply (Hmax (S i)). change (map sc ids !! i = Some (sc w)). by rewrite list_lookup_fmap, Hi. }
  destruct q as [|q].
  - injection Hmx as <-. by rewrite Hmw.
  - assert (H0 : fltb fzero mx = true) by (apply (Hfirst 0%nat); [lia|done|done]).
    change (map sc ids !! q = Some mx) in Hmx. rewrite list_lookup_fmap in Hmx. destruct (ids !! q) as [j|] eqn:Ej; [|done]. injection Hmx as <-.
    destruct (decide (j = w)) as [->|Hne]; [by rewrite H0|].
    rewrite Hlt in Hmw; [done|by eapply elem_of_list_lookup_2|done].
Qed.

Lemma winner_predicted (val : Z -> float64) ids w c :
  w ∈ ids -> (forall j, j ∈ ids -> j <> w -> fltb (val j) (val w) = true) ->
  predicted (zip_with mkPair ids (map val ids)) c -> c = w.
Proof.
  intros Hw Hlt HP. assert (Hout : zip_with mkPair ids (map val ids) = map (fun j => mkPair j (val j)) ids).
  { clear. induction ids as [|j ids IH]; [done|]. cbn. by rewrite IH. }
  rewrite Hout in HP. destruct HP as [[HN _]|(k & p & (v0 & Hv0 & Hs) & Hp & <-)].
  { destruct ids; [by apply elem_of_nil in Hw|discriminate HN]. }
  rewrite map_map in Hv0, Hs. cbn [iv_value] in Hv0, Hs. rewrite list_lookup_fmap in Hp.
  destruct (ids !! k) as [j|] eqn:Ej; [|done]. injection Hp as <-. cbn [iv_index].
  destruct (decide (j = w)) as [->|Hne]; [done|]. exfalso.
  specialize (Hlt j ltac:(by eapply elem_of_list_lookup_2) Hne). apply elem_of_list_lookup in Hw as (i & Hi).
  destruct (is_nan v0) eqn:Hn.
  - subst k. rewrite list_lookup_fmap, Ej in Hv0. injection Hv0 as <-. by destruct (val j).
  - destruct Hs as (v & Hv & _ & Hmax & _). rewrite list_lookup_fmap, Ej in Hv. injection Hv as <-.
    specialize (Hmax i (val w)). rewrite list_lookup_fmap, Hi in Hmax. rewrite Hmax in Hlt; done.
Qed.

Lemma removelast_take {A} (l : list A) : removelast l = take (pred (length l)) l.
Proof. induction l as [|x [|y l] IH]; [done|done|]. change (removelast (x :: y :: l)) with (x :: removelast (y :: l)). rewrite IH. done. Qed.

Lemma wins_predicted E m c n nv exs cnt n' m' ws :
  e_Mode E = LayerMode1 -> live E m c n nv -> sampled_output n -> Forall2 (wins E nv) exs ws ->
  network_PredictClass E c n exs m = Ok ((cnt, n'), m') -> cnt = hits exs ws.
Proof.
  intros HM L [HD (spl & Hspl & Hnf)] HW H. pose proof L as (_ & Hn & _). apply (predict_count _ _ _ _ _ _ _ _ _ L) in H as (cls & -> & _ & HF). f_equal.
  clear L. revert ws HW. induction HF as [|ex cl exs cls HF _ IH]; intros ws HW; [by inversion HW|].
  inversion HW as [|? w ? ws' Hw HW' E1 E2]; subst. rewrite (IH _ HW'). f_equal. clear IH HW HW'.
  destruct HF as (outs & out & HI & Hlast & HP). destruct Hw as (lv & l & retrieved & Hlv & Hl & Hfound & Hocc & Hbest).
  set (N := length (nv_layers nv)) in *. rewrite last_lookup in Hlv. fold N in Hlv.
  assert (HN : (0 < N)%nat) by (destruct (nv_layers nv); [discriminate Hlv|cbn in N; unfold N; lia]).
  rewrite removelast_take in Hfound, Hbest.
  unfold parameters_of in Hfound, Hbest. rewrite map_length, firstn_map in Hfound, Hbest. fold (parameters_of (take (pred N) (nv_layers nv))) in Hfound, Hbest.
  set (cur := fold_left _ _ (features ex)) in Hfound, Hbest.
  assert (Hcur : outs !! pred N = Some cur).
  { apply (dense_upto E (nv_layers nv) (nw_sparsity n) N [] (features ex) outs (pred N)); [fold N; lia| |exact HI|lia].
    intros j Hj. destruct (HD j) as (sp & Hsp & Hf); [lia|]. exists sp. split; [|done]. by replace (Z.to_nat (nw_num n)) with N in Hsp by lia. }
  pose proof HI as (HLo & _ & HI'). rewrite last_lookup, HLo in Hlast. cbn [pred] in Hlast.
  fold N in Hlast. assert (HSN : N = S (pred N)) by lia. rewrite HSN in Hlast.
  destruct (HI' _ _ _ _ Hlv Hcur Hlast) as (sp & ids & Hsp & HC & HO).
  assert (sp = spl) as ->.
  { replace (Z.to_nat (nw_num n) + Z.to_nat (nw_num n - 1))%nat with (N + pred N)%nat in Hspl by lia. congruence. }
  unfold chosen in HC. rewrite Hnf, HM in HC. destruct HC as (r2 & Hf2 & _ & Hids). rewrite (found_unique _ _ _ _ _ _ Hf2 Hfound) in Hids.
  assert (Hids' : forall j, j ∈ ids <-> 2 < occ (concat retrieved) j).
  { intros j. rewrite Hids. unfold tally. rewrite bool_decide_eq_false_2 by apply not_elem_of_nil. by rewrite andb_false_r, Z.add_0_l. }
  assert (Hlv' : l = (lv_type lv, map (fun v => (v_type v, v_w v, v_bias v)) (lv_nodes lv))).
  { unfold parameters_of in Hl. rewrite last_lookup, map_length, list_lookup_fmap in Hl. fold N in Hl. rewrite Hlv in Hl. by injection Hl as <-. }
  destruct HO as (acts & HA & HO).
  assert (Hacts : acts = map (score l cur) ids).
  { clear -HA Hlv'. induction HA as [|id a ids acts (H0 & v & Hv & Ha) HA IH]; [done|]. cbn [map]. f_equal; [|exact IH].
    apply activation_value in Ha. unfold score. rewrite Hlv'. cbn [snd]. by rewrite list_lookup_fmap, Hv. }
  assert (Hw : w ∈ ids) by (by apply Hids').
  subst acts.
  apply (winner_predicted (fun j => output_value (e_exp E) l (score l cur w) (score l cur j)) ids w cl Hw).
  { intros j Hj Hne. apply Hbest; [by apply Hids'|done]. }
  assert (Ht : is_softmax l.1 = is_softmax (lv_type lv)) by (by rewrite Hlv').
  unfold output_value. rewrite Ht. destruct (is_softmax (lv_type lv)).
  - destruct HO as (mx & HG & ->). revert HP.
    assert (Hmx : mx = if fltb fzero (score l cur w) then score l cur w else fzero).
    { apply (top_of (score l cur) ids w mx Hw); [|exact HG]. intros j Hj Hne. apply Hbest; [by apply Hids'|done]. }
    rewrite <- Hmx. unfold exps. rewrite map_map. done.
  - by subst out.
Qed.

Lemma wins_same E I nv nv' ex w : net_same_but I nv nv' -> wins E nv ex w -> wins E nv' ex w.
Proof.
  intros HS. unfold wins. rewrite (same_parameters _ _ _ HS). cbv zeta. intros (lv & l & r & Hlv & Hl & Hf & Hrest).
  destruct HS as [_ HF]. rewrite last_lookup in Hlv. destruct (Forall2_lookup_l _ _ _ _ _ HF Hlv) as (lv' & Hlv' & HL).
  rewrite (Forall2_length _ _ _ HF), <- last_lookup in Hlv'. exists lv', l, r. split; [done|]. split; [done|].
  rewrite (ls_hash _ _ _ HL), (ls_tables _ _ _ HL). done.
Qed.

Lemma wins_repeat E m c n nv exs ws cnt n1 m1 between cnt2 n2 m2 cnt3 n3 m3 :
  e_Mode E = LayerMode1 -> live E m c n nv -> sampled_output n -> Forall2 (wins E nv) exs ws ->
  network_PredictClass E c n exs m = Ok ((cnt, n1), m1) -> network_PredictClass E c n1 between m1 = Ok ((cnt2, n2), m2) ->
  network_PredictClass E c n2 exs m2 = Ok ((cnt3, n3), m3) -> cnt3 = cnt.
Proof.
  intros HM L HS HW H1 H2 H3. rewrite (wins_predicted _ _ _ _ _ _ _ _ _ _ HM L HS HW H1).
  destruct (predict_unchanged _ _ _ _ _ _ _ _ _ L H1) as (-> & nv1 & L1 & S1).
  destruct (predict_unchanged _ _ _ _ _ _ _ _ _ L1 H2) as (-> & nv2 & L2 & S2).
  refine (wins_predicted _ _ _ _ _ _ _ _ _ _ HM L2 HS _ H3).
  eapply Forall2_impl; [exact HW|]. intros ex w Hw. eapply wins_same; [exact S2|]. eapply wins_same; [exact S1|done].
Qed.

Lemma dense_repeat E m c n nv exs cnt n1 m1 between cnt2 n2 m2 cnt3 n3 m3 :
  live E m c n nv -> dense_prediction n ->
  network_PredictClass E c n exs m = Ok ((cnt, n1), m1) -> network_PredictClass E c n1 between m1 = Ok ((cnt2, n2), m2) ->
  network_PredictClass E c n2 exs m2 = Ok ((cnt3, n3), m3) -> cnt3 = cnt.
Proof.
  intros L HD H1 H2 H3. rewrite (dense_predict _ _ _ _ _ _ _ _ _ L HD H1).
  destruct (predict_unchanged _ _ _ _ _ _ _ _ _ L H1) as (-> & nv1 & L1 & S1).
  destruct (predict_unchanged _ _ _ _ _ _ _ _ _ L1 H2) as (-> & nv2 & L2 & S2).
  rewrite (dense_predict _ _ _ _ _ _ _ _ _ L2 HD H3). by rewrite (same_parameters _ _ _ S2), (same_parameters _ _ _ S1).
Qed.

(** Deciding [wins] for sparse random projections. *)
Definition found_srp (E : env) (h : hashers) (t : LSH) (cur : list Pair) : option (list (list Z)) :=
  match hs_srp h with
  | Some s => match srp_GetHashSparse s cur with
    | Ok codes => match lsh_HashesToIndex (e_Hash E) t codes with
      | Ok bs => match lsh_RetrieveRaw t bs with Ok ids => Some ids | Panic _ => None end
      | Panic _ => None end
    | Panic _ => None end
  | None => None
  end.
Definition winsb (E : env) (nv : NetView) (ex : Example_) (w : Z) : bool :=
  let ps := parameters_of (nv_layers nv) in
  let cur := fold_left (fun cur l => dense_layer (e_exp E) l cur) (removelast ps) (features ex) in
  match last (nv_layers nv), last ps with
  | Some lv, Some l => match found_srp E (lv_hash lv) (lv_tables lv) cur with
    | Some r => (2 <? occ (concat r) w) && forallb (fun j => (occ (concat r) j <=? 2) || (j =? w) ||
        (fltb (score l cur j) (score l cur w) &&
         fltb (output_value (e_exp E) l (score l cur w) (score l cur j)) (output_value (e_exp E) l (score l cur w) (score l cur w)))) (concat r)
    | None => false end
  | _, _ => false
  end.
Lemma winsb_sound E nv ex w : e_Hash E = SparseRandomProjectionHashFunction -> winsb E nv ex w = true -> wins E nv ex w.
Proof.
  intros HE. unfold winsb, wins. cbv zeta. set (cur := fold_left _ _ _). destruct (last (nv_layers nv)) as [lv|]; [|done].
  destruct (last (parameters_of (nv_layers nv))) as [l|]; [|done]. destruct (found_srp _ _ _ _) as [r|] eqn:Ef; [|done].
  intros [H1 H2]%andb_prop. exists lv, l, r. split; [done|]. split; [done|]. split; [|split; [lia|]].
  - unfold found_srp in Ef. destruct (hs_srp (lv_hash lv)) as [s|] eqn:E1; [|done]. destruct (srp_GetHashSparse s cur) as [codes|] eqn:E2; [|done].
    destruct (lsh_HashesToIndex _ _ codes) as [bs|] eqn:E3; [|done]. destruct (lsh_RetrieveRaw _ bs) as [ids|] eqn:E4; [|done]. injection Ef as <-.
    exists codes, bs. split; [|done]. unfold input_codes. rewrite HE. by exists s.
  - intros j Hj Hne. rewrite forallb_forall in H2.
    assert (Hin : In j (concat r)).
    { apply elem_of_list_In. unfold occ in Hj. destruct (filter (fun x => x = j) (concat r)) as [|x xs] eqn:Efl; [cbn in Hj; lia|].
      assert (Hx : x ∈ filter (fun x => x = j) (concat r)) by (rewrite Efl; left). apply elem_of_list_filter in Hx as [-> Hx]. done. }
    apply H2 in Hin. apply orb_prop in Hin as [Hin|Hin]; [apply orb_prop in Hin as [Hin|Hin]; [lia|]|].
    + apply Z.eqb_eq in Hin. congruence.
    + by apply andb_prop in Hin.
Qed.
