(** The number of active nodes is bounded by the tables, not by the layer. *)
From Verif.Spec Require Import LayerSpec ShapeSpec WorkSpec.
From Verif.Proofs Require Import FifoProofs LshProofs LayerModes ChosenProofs NetQuery NetInfer NetShape NetLive NetCalls.
From Coq Require Import Lia ZifyBool ZifyNat.
Local Open Scope Z_scope.

(** * Counting *)
Lemma occ_filter_ne xs j k : j <> k -> occ (filter (fun x => x <> j) xs) k = occ xs k.
Proof.
  intros Hne. unfold occ. do 2 f_equal. induction xs as [|x xs IH]; [done|]. rewrite filter_cons. destruct (decide (x <> j)) as [Hx|Hx].
  - rewrite !filter_cons. destruct (decide (x = k)); by rewrite IH.
  - rewrite IH. rewrite filter_cons. destruct (decide (x = k)) as [->|]; [|done]. exfalso. apply Hx. congruence.
Qed.
Lemma occ_split xs j : Z.of_nat (length xs) = occ xs j + Z.of_nat (length (filter (fun x => x <> j) xs)).
Proof.
  unfold occ. induction xs as [|x xs IH]; [done|]. rewrite !filter_cons. destruct (decide (x = j)) as [Hx|Hx]; destruct (decide (x <> j)) as [Hy|Hy]; try done; cbn [length]; lia.
Qed.
Lemma thrice ids : NoDup ids -> forall xs, (forall j, j ∈ ids -> 3 <= occ xs j) -> 3 * Z.of_nat (length ids) <= Z.of_nat (length xs).
Proof.
  induction 1 as [|j ids Hj _ IH]; intros xs HO; [cbn; lia|]. pose proof (occ_split xs j) as HS. pose proof (HO j (elem_of_list_here _ _)) as H3.
  assert (HI : 3 * Z.of_nat (length ids) <= Z.of_nat (length (filter (fun x => x <> j) xs))).
  { apply IH. intros k Hk. rewrite occ_filter_ne by (intros ->; done). apply HO. by right. }
  cbn [length]. lia.
Qed.
Lemma NoDup_within (ids xs : list Z) : NoDup ids -> (forall j, j ∈ ids -> j ∈ xs) -> (length ids <= length xs)%nat.
Proof. intros HN HS. apply submseteq_length, NoDup_submseteq; [done|]. intros j. apply HS. Qed.
Lemma concat_short (xss : list (list Z)) : Forall (fun xs => (length xs <= 128)%nat) xss -> Z.of_nat (length (concat xss)) <= 128 * Z.of_nat (length xss).
Proof. induction 1; [done|]. cbn [concat length]. rewrite app_length. lia. Qed.

(** * The tables *)
Lemma found_short E k l rp n h t cur retrieved : 0 <= rp <= 62 -> used_tables k l rp n t -> found E h t cur retrieved ->
  0 <= l /\ Z.of_nat (length (concat retrieved)) <= 128 * l.
Proof.
  intros Hrp (g & t0 & g' & ops & E0 & ER & _) (codes & buckets & _ & _ & HR). destruct (lsh_reachable _ _ _ _ _ _ _ _ Hrp E0 ER) as (HI & _).
  pose proof (li_l0 _ _ _ _ HI) as Hl. split; [done|]. unfold lsh_RetrieveRaw, make_slice in HR. rewrite (li_l _ _ _ _ HI) in HR.
  destruct (Z.ltb_spec l 0); [lia|]. cbn [mbind res_bind] in HR. rewrite replicate_length, Z2Nat.id in HR by done. apply mapM_res_Forall2 in HR.
  pose proof (Forall2_length _ _ _ HR) as HL. rewrite seqZ_length in HL. replace l with (Z.of_nat (length retrieved)) by lia. apply concat_short.
  apply Forall_forall. intros xs [q Hq]%elem_of_list_lookup. destruct (Forall2_lookup_r _ _ _ _ _ HR Hq) as (i & _ & Hi).
  binv Hi as row Er. binv Hi as index Ei. binv Hi as b Eb. injection Hi as <-. apply sget_Ok in Er as [_ Er]. apply sget_Ok in Eb as [_ Eb].
  pose proof (li_bkt _ _ _ _ HI _ _ _ _ Er Eb) as HF. rewrite (fifo_contents_length _ _ HF). lia.
Qed.

(** * The active nodes *)
Lemma chosen_bound E lv cur label sp ids k l rp n : 0 <= rp <= 62 -> used_tables k l rp n (lv_tables lv) -> lv_l lv = l ->
  lv_rand lv ≡ₚ seqZ 0 (Z.of_nat (length (lv_nodes lv))) -> chosen E lv cur label sp ids ->
  active_bound E (is_softmax (lv_type lv)) l (Z.of_nat (length (lv_nodes lv))) label sp (Z.of_nat (length ids)).
Proof.
  intros Hrp HT HL HR HC. unfold chosen in HC. unfold active_bound. cbv zeta in *. destruct (feqb sp fone).
  { subst ids. rewrite seqZ_length. lia. }
  destruct (e_Mode E); [| | | |done].
  - destruct HC as (retrieved & HF & HN & HI). destruct (found_short _ _ _ _ _ _ _ _ _ Hrp HT HF) as [Hl HS].
    set (labs := if is_softmax (lv_type lv) then label else []).
    assert (HA : (length (filter (fun j => j ∈ labs) ids) <= length labs)%nat).
    { apply NoDup_within; [by apply NoDup_filter|]. intros j. rewrite elem_of_list_filter. by intros [? _]. }
    assert (HB : 3 * Z.of_nat (length (filter (fun j => j ∉ labs) ids)) <= Z.of_nat (length (concat retrieved))).
    { apply thrice; [by apply NoDup_filter|]. intros j. rewrite elem_of_list_filter. intros [Hj Hin]. apply HI in Hin. unfold tally in Hin. unfold labs in Hj.
      destruct (is_softmax (lv_type lv)); cbn [andb] in Hin; [rewrite bool_decide_eq_false_2 in Hin by done|]; lia. }
    assert (HP : length ids = (length (filter (fun j => j ∈ labs) ids) + length (filter (fun j => j ∉ labs) ids))%nat).
    { clear. induction ids as [|j ids IH]; [done|]. rewrite !filter_cons. destruct (decide (j ∈ labs)), (decide (j ∉ labs)); try done; cbn [length]; lia. }
    assert (HK : (if is_softmax (lv_type lv) then Z.of_nat (length label) else 0) = Z.of_nat (length labs)) by (unfold labs; by destruct (is_softmax _)).
    rewrite HK. lia.
  - intros Hs. rewrite Hs in HC. destruct HC as (rest & _ & _ & _ & HC). exact HC.
  - intros Hs. rewrite Hs in HC. destruct HC as (ps & rest & -> & HC & HP & _). rewrite app_length, replicate_length, map_length.
    pose proof (Permutation_length HP) as HQ. rewrite map_length, seqZ_length in HQ. unfold target_size in HC. rewrite <- HC. lia.
  - destruct HC as (retrieved & HF & HC). destruct (found_short _ _ _ _ _ _ _ _ _ Hrp HT HF) as [Hl HS].
    destruct HC as (sel & start & -> & HSS & _ & HI); [done|lia|]. rewrite app_length, replicate_length.
    set (softmax := is_softmax (lv_type lv)) in *. set (cand := candidates softmax label retrieved) in *.
    set (d := if softmax then Z.of_nat (length label) - distinct label else 0) in *.
    assert (Hd : 0 <= d). { unfold d. destruct softmax; [|lia]. pose proof (distinct_le label). lia. }
    assert (HN : NoDup sel). { clear -HSS. induction HSS as [|x xs HS IH HF]; [constructor|]. constructor; [|done]. intros Hx. rewrite Forall_forall in HF. specialize (HF x Hx). lia. }
    assert (HW : (length sel <= length (remove_dups cand ++ fill cand (lv_rand lv) (distinct cand + d) start))%nat).
    { apply NoDup_within; [done|]. intros j Hj. apply HI in Hj. rewrite elem_of_app, elem_of_remove_dups. done. }
    rewrite app_length in HW. assert (HFl : (length (fill cand (lv_rand lv) (distinct cand + d) start) <= Z.to_nat (1000 - (distinct cand + d)))%nat) by (unfold fill; rewrite take_length; lia).
    fold (distinct cand) in *. assert (HD : Z.of_nat (length (remove_dups cand)) = distinct cand) by done.
    assert (HC2 : distinct cand + d <= 128 * l + (if softmax then Z.of_nat (length label) else 0)).
    { unfold d, cand, candidates. destruct softmax; [|cbn [app]; pose proof (distinct_le (concat retrieved)); lia].
      assert (HQ : distinct (label ++ concat retrieved) <= distinct label + Z.of_nat (length (concat retrieved))).
      { unfold distinct. rewrite <- Nat2Z.inj_add, <- app_length. apply inj_le. apply NoDup_within; [apply NoDup_remove_dups|]. intros j. rewrite elem_of_remove_dups, !elem_of_app, elem_of_remove_dups. done. }
      lia. }
    lia.
Qed.

(** * The network *)
Lemma inference_bound E c num sizes types batch lr inputDim k l rp sparsity m n m' os n' m'' :
  e_LoadWeight E = false -> dims_ok E num sizes batch inputDim ->
  network_New E c num sizes types batch lr inputDim k l rp sparsity m = Ok (n, m') ->
  call_ops E c n os m' = Ok (n', m'') ->
  exists nv, live E m'' c n nv /\ forall iter lvs sps off label feats outs,
    reshuffled iter (nv_layers nv) lvs -> inference E lvs sps off label feats outs ->
    forall j out ty N L rj sp, outs !! S j = Some out -> types !! j = Some ty -> sizes !! j = Some N -> l !! j = Some L ->
      rp !! j = Some rj -> 0 <= rj <= 62 -> sps !! (off + j)%nat = Some sp ->
      active_bound E (is_softmax ty) L N label sp (Z.of_nat (length out)).
Proof.
  intros H1 H2 H3 H4. destruct (shape_calls _ _ _ _ _ _ _ _ _ _ _ _ _ _ _ _ _ _ H1 H2 H3 H4) as (-> & nv & L & [HN HS] & _).
  exists nv. split; [done|]. intros iter lvs sps off label feats outs [HRS _] (HL & HF & HI) j out ty N L' rj sp Ho Ht Hn Hl Hr Hrj Hsp.
  pose proof (lookup_lt_Some _ _ _ Ho) as Hlt. destruct (lookup_lt_is_Some_2 lvs j) as [lv Hlv2]; [lia|].
  destruct (Forall2_lookup_r _ _ _ _ _ HRS Hlv2) as (lv0 & Hlv & r & -> & Hperm).
  destruct (lookup_lt_is_Some_2 outs j) as [cur Hcur]; [lia|].
  destruct (HS _ _ Hlv) as (size & prev & ty' & kj & lj & rj' & A1 & A2 & A3 & A4 & A5 & A6 & SH). simplify_eq.
  destruct (HI _ _ _ _ Hlv2 Hcur Ho) as (sp' & ids & B1 & B2 & B3). simplify_eq.
  assert (HLen : length out = length ids).
  { destruct B3 as (acts & HA & HB). cbn [lv_type lv_set_rand] in HB. apply Forall2_length in HA. destruct (is_softmax (lv_type lv0)).
    - destruct HB as (mx & _ & ->). rewrite zip_with_length, exps_length. lia.
    - rewrite HB, zip_with_length. lia. }
  rewrite HLen. pose proof (chosen_bound E (lv_set_rand lv0 r) cur label sp ids _ _ _ _ Hrj (ss_tables _ _ _ _ _ _ _ _ _ SH) (ss_l _ _ _ _ _ _ _ _ _ SH)) as HB. cbn [lv_nodes lv_type lv_rand lv_set_rand] in HB.
  rewrite (ss_size _ _ _ _ _ _ _ _ _ SH), (ss_type _ _ _ _ _ _ _ _ _ SH) in HB.
  assert (HZ : 0 <= N). { destruct (H2 ) as (_ & _ & HD). destruct (HD j N prev) as (? & ? & ?); [|done..|lia]. apply lookup_lt_Some in Hlv. lia. }
  rewrite Z2Nat.id in HB by lia. apply HB; [|done]. etransitivity; [exact Hperm|]. pose proof (ss_rand _ _ _ _ _ _ _ _ _ SH) as HR. by rewrite Z2Nat.id in HR by lia.
Qed.
Lemma query_bound E c num sizes types batch lr inputDim k l rp sparsity m n m' os n' m'' j lp anpl li i label sp in_ anpl' lp' m3 ty N L rj :
  e_LoadWeight E = false -> dims_ok E num sizes batch inputDim ->
  network_New E c num sizes types batch lr inputDim k l rp sparsity m = Ok (n, m') ->
  call_ops E c n os m' = Ok (n', m'') ->
  layer_of m'' n j lp -> layer_Query E c lp anpl li i label sp m'' = Ok ((in_, anpl', lp'), m3) ->
  types !! j = Some ty -> sizes !! j = Some N -> l !! j = Some L -> rp !! j = Some rj -> 0 <= rj <= 62 ->
  active_bound E (is_softmax ty) L N label sp (Z.of_nat (length (active_of anpl' li))).
Proof.
  intros H1 H2 H3 H4 (ls & Hls & Hlp) HQ Ht Hn Hl Hr Hrj. destruct (shape_calls _ _ _ _ _ _ _ _ _ _ _ _ _ _ _ _ _ _ H1 H2 H3 H4) as (-> & nv & LV & [HN HS] & _).
  destruct LV as (_ & _ & lls & R & LO & _). rewrite (nr_arr _ _ _ _ _ R) in Hls. injection Hls as <-.
  change (map ll_ptr lls) with (ll_ptr <$> lls) in Hlp. rewrite list_lookup_fmap in Hlp. destruct (lls !! j) as [ll|] eqn:Hll; [|done]. injection Hlp as <-.
  destruct (lookup_lt_is_Some_2 (nv_layers nv) j) as [lv Hlv]; [rewrite <- (nr_len _ _ _ _ _ R); by eapply lookup_lt_Some|].
  pose proof (query_ref E c _ lls LO j ll Hll _ nv lv anpl li i label sp R Hlv) as RF.
  eapply refines_Ok in RF as ([[[in1 an1] lv1] g1] & RQ & [Ha R']); [|exact HQ]. cbn [fst snd] in *. injection Ha as -> -> ->.
  apply query_full in RQ as (cur & sel & ids & acts & out & Ec & Es & Hli & HL & Hids & HA & -> & HO).
  destruct (HS _ _ Hlv) as (size & prev & ty' & kj & lj & rj' & A1 & A2 & A3 & A4 & A5 & A6 & SH).
  assert (size = N /\ ty' = ty /\ lj = L /\ rj' = rj) as (-> & -> & -> & ->) by (split_and!; congruence).
  assert (HZ : 0 <= N). { destruct H2 as (_ & _ & HD). destruct (HD j N prev) as (? & ? & ?); [|done..|lia]. apply lookup_lt_Some in Hlv. lia. }
  pose proof (ss_size _ _ _ _ _ _ _ _ _ SH) as Hsz. pose proof (ss_type _ _ _ _ _ _ _ _ _ SH) as Hty.
  assert (HLen : length (active_of (<[Z.to_nat (li + 1) := out]> anpl) li) = length ids).
  { unfold active_of. rewrite list_lookup_insert by done. cbn [default from_option id]. rewrite map_length. apply Forall2_length in HA. destruct (is_softmax (lv_type lv)).
    - destruct HO as (-> & _). rewrite zip_with_length, exps_length. lia.
    - destruct HO as (-> & _). rewrite zip_with_length. lia. }
  rewrite HLen. destruct sel as [act|].
  - pose proof (select_chosen _ _ _ _ _ _ _ _ _ Es) as HC. cbn in HC. rewrite <- Hids in HC.
    pose proof (chosen_bound E lv cur label sp ids _ _ _ _ Hrj (ss_tables _ _ _ _ _ _ _ _ _ SH) (ss_l _ _ _ _ _ _ _ _ _ SH)) as HB.
    rewrite Hsz, Hty, Z2Nat.id in HB by lia. apply HB; [|done]. pose proof (ss_rand _ _ _ _ _ _ _ _ _ SH) as HR. by rewrite Z2Nat.id in HR by lia.
  - unfold ref_select in Es. unfold active_bound. rewrite Hty in Es. destruct (feqb sp fone); [discriminate Es|]. destruct (e_Mode E).
    + binv Es as x Ex. destruct (select_mode1 _ _ _ _ _). discriminate Es.
    + intros Hs. rewrite Hs in Es. binv Es as x Ex. destruct x. discriminate Es.
    + intros Hs. rewrite Hs in Es. binv Es as x Ex. destruct x. discriminate Es.
    + binv Es as x Ex. binv Es as y Ey. destruct y as [[? ?] ?]. discriminate Es.
    + done.
Qed.
