(** The random nodes of a network that was made by New and used: its queries return, so C89 and C90 apply to it. *)
From Verif.Spec Require Import FairSpec ShapeSpec.
From Verif.Proofs Require Import LayerModes NetFrame NetCalls NetQuery NetTotal NetSafe FillProofs DrawProofs WorkProofs ProgramProofs.
Local Open Scope Z_scope.

Lemma slices_in P anpl j cur : slices_for P anpl j cur ->
  0 <= P -> anpl !! j = Some cur /\ anpl !! S j = Some [] /\ Forall (NetTotal.in_range (Z.to_nat P)) cur /\ (length cur <= Z.to_nat P)%nat.
Proof.
  intros (H1 & H2 & H3 & H4) HP. split_and!; try done; [|lia].
  apply Forall_forall. intros p Hp. unfold NetTotal.in_range. specialize (H3 p Hp). lia.
Qed.

(** With enough draws LayerMode2 ends. *)
Lemma sget_nofuel {A} (xs : list A) i : sget xs i <> Panic PFuel.
Proof. unfold sget. repeat case_match; done. Qed.
Lemma sset_nofuel {A} (xs : list A) i x : sset xs i x <> Panic PFuel.
Proof. unfold sset. repeat case_match; done. Qed.
Lemma foldM_nofuel {S A} (f : S -> A -> res S) xs : (forall s x, f s x <> Panic PFuel) -> forall s, foldM f s xs <> Panic PFuel.
Proof.
  intros HF. induction xs as [|x xs IH]; intros s; [done|]. cbn [foldM]. destruct (f s x) as [s'|q] eqn:Ef; cbn [mbind res_bind]; [apply IH|].
  intros [= ->]. by apply (HF s x).
Qed.
Lemma mode2_fill_enough fuel N n : 0 < N -> forall ds xs active bs g,
  m2_active n xs active -> m2_marks xs bs ->
  (forall k d, ds !! k = Some d -> rstream g (rpos g + k) mod N = d) -> (n - length xs <= length (firsts xs ds))%nat -> (length ds <= fuel)%nat ->
  mode2_fill fuel N (Z.of_nat n) active bs (Z.of_nat (length xs)) g <> Panic PFuel.
Proof.
  intros HN0. induction fuel as [|fuel IH]; intros ds xs active bs g HA HM HD HF HT; cbn [mode2_fill];
    (destruct (Z.ltb_spec (Z.of_nat (length xs)) (Z.of_nat n)) as [Hlt|Hge]; [|done]);
    (destruct ds as [|d ds]; [cbn in HF; lia|]); cbn [length] in HT; [lia|].
  unfold rand_intn. destruct (Z.leb_spec N 0) as [|_]; [lia|]. cbn [mbind res_bind].
  destruct (draw_below N g) as [v g1] eqn:Eg. unfold draw_below, draw in Eg. injection Eg as Ev <-.
  destruct (sget bs v) as [b|q] eqn:Eb; cbn [mbind res_bind]; [|intros [= ->]; by apply sget_nofuel in Eb].
  apply sget_Ok in Eb as [Hv Eb].
  assert (v = d) as <-. { rewrite <- Ev. specialize (HD 0%nat d eq_refl). by rewrite Nat.add_0_r in HD. }
  assert (HD' : forall k d, ds !! k = Some d -> rstream g (S (rpos g) + k) mod N = d).
  { intros k d Hk. replace (S (rpos g) + k)%nat with (rpos g + S k)%nat by lia. by apply (HD (S k)). }
  pose proof (HM _ _ Eb) as Hm. rewrite Z2Nat.id in Hm by lia. cbn [firsts] in HF.
  destruct b; cbn [negb].
  - rewrite decide_True in HF by (by apply Hm). eapply IH; try done. lia.
  - assert (Hn : v ∉ xs) by (intros Hx; by apply Hm in Hx).
    rewrite decide_False in HF by done. cbn [length] in HF.
    destruct (sset active _ _) as [active'|q] eqn:Ea; cbn [mbind res_bind]; [|intros [= ->]; by apply sset_nofuel in Ea].
    destruct (sset bs v true) as [bs'|q] eqn:Eb'; cbn [mbind res_bind]; [|intros [= ->]; by apply sset_nofuel in Eb'].
    replace (Z.of_nat (length xs) + 1) with (Z.of_nat (length (xs ++ [v]))) by (rewrite app_length; cbn; lia).
    assert (EX : firsts (v :: xs) ds = firsts (xs ++ [v]) ds) by (apply firsts_ext; intros x; set_solver).
    assert (LX : length (xs ++ [v]) = S (length xs)) by (rewrite app_length; cbn; lia).
    eapply (IH ds); [by eapply m2_put|by eapply m2_mark|done|rewrite <- EX, LX; lia|lia].
Qed.
Lemma mode2_labels n ML label act1 bs1 :
  foldM (fun '(active, bs) '(i, labelValue) =>
    active ← sset active i (pair0 labelValue); bs ← sset bs labelValue true; Ok (active, bs))
    (replicate (Z.to_nat n) (pair0 0), replicate (Z.to_nat ML) false) (indexed label) = Ok (act1, bs1) ->
  m2_active (Z.to_nat n) label act1 /\ m2_marks label bs1.
Proof.
  intros E3.
  eapply (foldM_Ok_prefix (fun pre '(act, bs) => forall ys, pre = indexed ys -> m2_active (Z.to_nat n) ys act /\ m2_marks ys bs)) in E3;
      [by apply E3| |].
    - intros [|y ys] Hys; [|apply (f_equal length) in Hys; rewrite indexed_length in Hys; cbn in Hys; lia].
      split.
      + split; [|cbn; lia]. cbn [app length]. rewrite Nat.sub_0_r. symmetry. apply fmap_replicate.
      + intros j b [-> _]%lookup_replicate. split; [done|]. by intros ?%elem_of_nil.
    - intros pre [i x] [act bs] [act' bs'] HI Hp.
      destruct (prefix_indexed _ _ _ _ Hp) as (-> & ys & -> & _).
      destruct (sset act _ _) as [a1|] eqn:Ea; cbn [mbind res_bind]; [|done].
      destruct (sset bs x true) as [b1|] eqn:Eb; cbn [mbind res_bind]; [|done]. intros [= <- <-].
      intros zs Hzs. destruct (HI ys eq_refl) as [HA HB].
      assert (zs = ys ++ [x]) as ->.
      { rewrite indexed_length in Hzs. rewrite <- indexed_snoc in Hzs.
        assert (forall (A : Type) (l : list A), map snd (indexed l) = l) as Hsnd.
        { intros A l. unfold indexed. apply snd_zip. rewrite seqZ_length. lia. }
        apply (f_equal (map snd)) in Hzs. by rewrite !Hsnd in Hzs. }
      rewrite indexed_length in Ea. split; [by eapply m2_put|by eapply m2_mark].
Qed.
Lemma select_mode2_enough fuel N sparsity label g ds : let n := int_floor (fmul (f_of_Z N) sparsity) in 0 < N ->
  (forall k d, ds !! k = Some d -> rstream g (rpos g + k) mod N = d) ->
  (Z.to_nat (n - Z.of_nat (length label)) <= length (firsts label ds))%nat -> (length ds <= fuel)%nat ->
  select_mode2 fuel N sparsity label g <> Panic PFuel.
Proof.
  intros n0 HN0. unfold select_mode2. generalize mapLen. intros ML HD HF HT.
  destruct (make_slice (pair0 0) _) as [act|q] eqn:E1; cbn [mbind res_bind]; [|revert E1; unfold make_slice; case_match; congruence].
  apply make_slice_inv in E1 as [Hn ->].
  destruct (make_slice false ML) as [bs|q] eqn:E2; cbn [mbind res_bind]; [|revert E2; unfold make_slice; case_match; congruence].
  apply make_slice_inv in E2 as [HM ->]. fold n0 in Hn |- *. generalize dependent n0. intros n HF Hn.
  destruct (foldM _ _ (indexed label)) as [[act1 bs1]|q] eqn:E3; cbn [mbind res_bind].
  2: { intros [= ->]. revert E3. apply foldM_nofuel. intros [s1 s2] [i x]. destruct (sset s1 _ _) eqn:Ea; cbn [mbind res_bind]; [|intros [= ->]; by apply sset_nofuel in Ea].
       destruct (sset s2 _ _) eqn:Eb; cbn [mbind res_bind]; [done|intros [= ->]; by apply sset_nofuel in Eb]. }
  assert (m2_active (Z.to_nat n) label act1 /\ m2_marks label bs1) as [HA HB] by (by eapply mode2_labels).
  replace n with (Z.of_nat (Z.to_nat n)) by lia.
  replace (Z.to_nat (n - Z.of_nat (length label))) with (Z.to_nat n - length label)%nat in * by lia.
  by eapply mode2_fill_enough.
Qed.

Section Net.
  Context (E : env) (c num : Z) (sizes : list Z) (types : list NodeType) (batch : Z) (lr : float64) (inputDim : Z) (k l rp : list Z) (sparsity : list float64)
    (m : mem) (n : Network) (m1 : mem) (calls : list net_op) (n' : Network) (m2 : mem) (mode : NodeType -> Z -> float64 -> Prop)
    (j lp : nat) (la : Layer) (N P : Z)
    (HLW : e_LoadWeight E = false) (HWF : well_formed_with mode E num sizes types batch inputDim k l rp sparsity)
    (HN : network_New E c num sizes types batch lr inputDim k l rp sparsity m = Ok (n, m1))
    (HC : call_ops E c n calls m1 = Ok (n', m2))
    (Hlp : layer_of m2 n j lp) (Hla : m_layer m2 !! lp = Some la) (HNj : sizes !! j = Some N) (HPj : (inputDim :: sizes) !! j = Some P).

  Lemma setup : exists lls ll nv lv kj lj rj, lays_ok lls /\ net_rep m2 c (nw_layers n) lls nv /\ lls !! j = Some ll /\ nv_layers nv !! j = Some lv /\
    lp = ll_ptr ll /\ la = layer_rec c ll lv /\ 0 <= N /\ 0 <= P /\ types !! j = Some (lv_type lv) /\ lv_type lv <> TypeOther /\
    hash_works E kj lj rj P /\ 0 <= lj /\ length (ll_ns ll) = Z.to_nat N /\
    layer_shape E (Z.to_nat batch) (Z.to_nat N) (Z.to_nat P) (lv_type lv) kj lj rj lv.
  Proof using HLW HWF HN HC Hlp Hla HNj HPj.
    pose proof (well_dims _ _ _ _ _ _ _ _ _ _ _ HWF) as HD.
    destruct (shape_calls _ _ _ _ _ _ _ _ _ _ _ _ _ _ _ _ _ _ HLW HD HN HC) as (-> & nv & LV & [HNum HS] & _).
    destruct LV as (_ & _ & lls & R & LO & _). destruct Hlp as (ls & Hls & Hlp1). rewrite (nr_arr _ _ _ _ _ R) in Hls. injection Hls as <-.
    change (map ll_ptr lls) with (ll_ptr <$> lls) in Hlp1. rewrite list_lookup_fmap in Hlp1. destruct (lls !! j) as [ll|] eqn:Hll; [|done]. injection Hlp1 as <-.
    destruct (lookup_lt_is_Some_2 (nv_layers nv) j) as [lv Hlv]; [rewrite <- (nr_len _ _ _ _ _ R); by eapply lookup_lt_Some|].
    pose proof (nr_at _ _ _ _ _ R _ _ _ Hll Hlv) as LR.
    destruct (HS _ _ Hlv) as (size & prev & ty & kj & lj & rj & A1 & A2 & A3 & A4 & A5 & A6 & SH).
    pose proof (ss_type _ _ _ _ _ _ _ _ _ SH) as Hty. subst ty. assert (size = N) as -> by congruence. assert (prev = P) as -> by congruence.
    destruct HWF as (W1 & W2 & W3 & W4). pose proof (lookup_lt_Some _ _ _ Hlv) as Hj.
    destruct (W4 j) as (sz & pv & ty & kk & ll1 & rr & sp & sp' & B1 & B2 & B3 & B4 & B5 & B6 & B7 & B8 & B9 & B10 & B11 & B12 & B13 & B14 & B15 & B16); [lia|].
    assert (sz = N /\ pv = P /\ ty = lv_type lv /\ kk = kj /\ ll1 = lj /\ rr = rj) as (-> & -> & -> & -> & -> & ->) by (split_and!; congruence).
    exists lls, ll, nv, lv, kj, lj, rj. split_and!; try done.
    - pose proof (lr_layer _ _ _ _ LR). congruence.
    - destruct j as [|j']; [cbn in HPj; injection HPj as <-; done|]. change (sizes !! j' = Some P) in HPj.
      destruct (W4 j') as (sz & ? & ? & ? & ? & ? & ? & ? & D1 & _ & _ & _ & _ & _ & _ & _ & D2 & _); [lia|]. congruence.
    - by apply fits_works in B14 as [? _].
    - by destruct B14 as [? _].
    - pose proof (reps_l2 _ _ _ _ _ (lr_nodes _ _ _ _ LR)) as HL2. pose proof (ss_size _ _ _ _ _ _ _ _ _ SH). congruence.
  Qed.

  Section Call.
    Context (anpl : list (list Pair)) (cur : list Pair) (i : Z) (label : list Z) (sp : float64)
      (HA : slices_for P anpl j cur) (HLab : labels_for N label) (Hi : 0 <= i < batch) (HN0 : 0 < N) (Hsp : feqb sp fone = false).

    Section Mode4.
      Context (HM : e_Mode E = LayerMode4).
      Let query o := layer_Query E c lp anpl (Z.of_nat j) i label sp (with_order m2 la o).
      Lemma order_returns o : o ≡ₚ seqZ 0 N -> exists r, query o = Ok r.
      Proof using All.
        intros Ho. destruct setup as (lls & ll & nv & lv & kj & lj & rj & LO & R & Hll & Hlv & -> & -> & HN1 & HP1 & Hty & Hto & HW & Hl & Hns & SH).
        destruct (slices_in _ _ _ _ HA HP1) as (Hc1 & Hc2 & Hc3 & Hc4).
        pose proof (net_rand c (nw_layers n) lls LO m2 nv j ll lv o (proj2 (net_inv_True _ _ _ _ _) R) Hll Hlv) as R1%net_inv_True.
        assert (Hlv1 : nv_layers (nv_set nv j (lv_set_rand lv o)) !! j = Some (lv_set_rand lv o)) by (cbn; apply list_lookup_insert; by eapply lookup_lt_Some).
        pose proof (query_ref E c _ lls LO j ll Hll _ _ _ anpl (Z.of_nat j) i label sp R1 Hlv1) as RF.
        destruct (query_total_sel False False (rstream (nv_rng (nv_set nv j (lv_set_rand lv o)))) E (lv_set_rand lv o) (Z.to_nat batch) (Z.to_nat N) (Z.to_nat P) (lv_type lv) kj lj rj anpl cur j i label sp (nv_rng (nv_set nv j (lv_set_rand lv o)))) as (in_ & out & lv' & g' & EQ & _); try done.
        - destruct SH. constructor; try done. cbn. by rewrite Z2Nat.id.
        - right. rewrite HM, Z2Nat.id by done. split; [done|lia].
        - intros _. rewrite Z2Nat.id by done. split; [apply HLab|]. apply Forall_forall, HLab.
        - intros _ HM'. congruence.
        - lia.
        - rewrite EQ in RF. destruct RF as (a & m3 & H & _). by exists (a, m3).
      Qed.
      Lemma network_fair : exists t retrieved, m_lsh m2 !! l_tables la = Some t /\ found E (l_hashers la) t cur retrieved /\
        let cand := candidates (is_softmax (l_type la)) label retrieved in
        forall os, every_order N os ->
        (forall o, o ∈ os -> exists r, query o = Ok r) /\
        (forall s, s ∈ combos (missing N cand) (others N cand) ->
          (length (filter (fun o => added cand (Z.of_nat j) (query o) = Some s) os) * length (combos (missing N cand) (others N cand)) = length os)%nat) /\
        (forall x, x ∈ others N cand ->
          (length (filter (fun o => x ∈ default [] (added cand (Z.of_nat j) (query o))) os) * length (others N cand) = missing N cand * length os)%nat).
      Proof using All.
        destruct setup as (lls & ll & nv & lv & kj & lj & rj & LO & R & Hll & Hlv & E1 & E2 & HN1 & HP1 & Hty & Hto & HW & Hl & Hns & SH).
        pose proof (nr_at _ _ _ _ _ R _ _ _ Hll Hlv) as LR.
        destruct (slices_in _ _ _ _ HA HP1) as (Hc1 & Hc2 & Hc3 & Hc4).
        destruct (retrieve_total E kj lj rj P (lv_hash lv) (lv_tables lv) (Z.to_nat N) cur HW) as (retrieved & HR & _);
          [pose proof (ss_hash _ _ _ _ _ _ _ _ _ SH) as HH; by rewrite Z2Nat.id in HH|apply SH|lia|].
        assert (HF : found E (l_hashers la) (lv_tables lv) cur retrieved). { apply found_iff. rewrite E2.
          assert (EH : l_hashers (layer_rec c ll lv) = lv_hash lv) by (unfold l_hashers, layer_rec; cbn; by destruct (lv_hash lv)). rewrite EH. exact HR. }
        exists (lv_tables lv), retrieved. split; [rewrite E2; apply LR|]. split; [done|]. intros cand os HO.
        assert (HQ : forall o, o ∈ os -> exists r, query o = Ok r) by (intros o Ho; apply order_returns, HO, Ho).
        assert (AT : layer_at m2 lp la (ll_ns ll) (lv_rand lv) (lv_tables lv)) by (rewrite E2; constructor; [congruence|apply LR..]).
        assert (Hget : sget anpl (Z.of_nat j) = Ok cur) by (apply sget_Ok; split; [lia|by rewrite Nat2Z.id]).
        assert (EN : Z.of_nat (length (ll_ns ll)) = N) by lia.
        assert (Hll0 : 0 <= l_l la) by (rewrite E2; cbn; rewrite (ss_l _ _ _ _ _ _ _ _ _ SH); done).
        split; [done|]. pose proof HO as HO'. rewrite <- EN in HO'. split.
        - intros s Hs. pose proof (added_fair _ c _ _ _ i label _ _ _ _ _ _ _ _ _ AT HM Hsp Hll0 Hget HF (proj1 HLab) HO' HQ s) as G. rewrite EN in G. by apply G.
        - intros x Hx. pose proof (added_node _ c _ _ _ i label _ _ _ _ _ _ _ _ _ AT HM Hsp Hll0 Hget HF (proj1 HLab) HO' HQ x) as G. rewrite EN in G. by apply G.
      Qed.
    End Mode4.

    Section Mode2.
      Context (T : nat) (HM : e_Mode E = LayerMode2) (Hsm : types !! j = Some Softmax) (HNM : N <= 325056) (HT : (T <= e_fuel E)%nat).
      Let share := int_floor (fmul (f_of_Z N) sp).
      Context (Hroom : Z.of_nat (length label) <= share).
      Let need := Z.to_nat (share - Z.of_nat (length label)).
      Let draws := filter (fun ds => (need <= length (firsts label ds))%nat) (all_draws N T).
      Let query ds := layer_Query E c lp anpl (Z.of_nat j) i label sp (with_draws m2 ds).
      Lemma draws_return ds : ds ∈ draws -> exists r, query ds = Ok r.
      Proof using All.
        intros [Hen Hd]%elem_of_list_filter. apply in_all_draws in Hd as [HLd Hrng].
        destruct setup as (lls & ll & nv & lv & kj & lj & rj & LO & R & Hll & Hlv & -> & -> & HN1 & HP1 & Hty & Hto & HW & Hl & Hns & SH).
        assert (Hs : lv_type lv = Softmax) by congruence. rewrite Hs in *.
        destruct (slices_in _ _ _ _ HA HP1) as (Hc1 & Hc2 & Hc3 & Hc4).
        set (g := with_choices (m_rng m2) 0 ds).
        pose proof (net_rng c (nw_layers n) lls m2 nv g (proj2 (net_inv_True _ _ _ _ _) R)) as R1%net_inv_True.
        pose proof (query_ref E c _ lls LO j ll Hll _ _ lv anpl (Z.of_nat j) i label sp R1 Hlv) as RF.
        destruct (query_total_sel True False (rstream g) E lv (Z.to_nat batch) (Z.to_nat N) (Z.to_nat P) Softmax kj lj rj anpl cur j i label sp g) as (in_ & out & lv' & g' & EQ & _); try done.
        - right. rewrite HM. right. rewrite Z2Nat.id by done. split; [done|]. split; [done|]. split; [lia|]. split; [exact HNM|]. fold share. lia.
        - intros _. rewrite Z2Nat.id by done. split; [apply HLab|]. apply Forall_forall, HLab.
        - intros _ _ _. by rewrite Z2Nat.id by done.
        - intros _. right. unfold ref_select. rewrite (ss_size _ _ _ _ _ _ _ _ _ SH), Hs, Hsp, HM, Z2Nat.id by done. cbn [is_softmax].
          destruct (select_mode2 (e_fuel E) N sp label g) as [[a g']|q] eqn:ES; cbn [mbind res_bind]; [done|]. intros [= ->].
          revert ES. apply select_mode2_enough with (ds := ds); [lia| |exact Hen|lia].
          intros q d Hq. unfold g, with_choices. cbn [rstream rpos]. rewrite Nat.add_0_r. rewrite decide_False by lia.
          replace (rpos (m_rng m2) + q - rpos (m_rng m2))%nat with q by lia. rewrite Hq. cbn [default from_option id].
          assert (Hd : d ∈ seqZ 0 N) by (apply Hrng; by eapply elem_of_list_lookup_2). apply elem_of_seqZ in Hd. apply Z.mod_small. lia.
        - lia.
        - change (nv_rng (nv_set_rng nv g)) with g in RF. rewrite EQ in RF. destruct RF as (a & m3 & H & _). by exists (a, m3).
      Qed.
      Lemma network_random_fair :
        (forall ds, ds ∈ draws -> exists r, query ds = Ok r) /\
        (forall s, s ∈ arrangements need (others N label) ->
          (length (filter (fun ds => added label (Z.of_nat j) (query ds) = Some s) draws) * length (arrangements need (others N label)) = length draws)%nat) /\
        (forall x, x ∈ others N label ->
          (length (filter (fun ds => x ∈ default [] (added label (Z.of_nat j) (query ds))) draws) * length (others N label) = need * length draws)%nat).
      Proof using All.
        split; [exact draws_return|].
        destruct setup as (lls & ll & nv & lv & kj & lj & rj & LO & R & Hll & Hlv & E1 & E2 & HN1 & HP1 & Hty & Hto & HW & Hl & Hns & SH).
        pose proof (nr_at _ _ _ _ _ R _ _ _ Hll Hlv) as LR.
        assert (EN : Z.of_nat (length (ll_ns ll)) = N) by lia.
        assert (Hna : m_na m2 !! l_nodes la = Some (ll_ns ll)) by (rewrite E2; apply LR).
        assert (Hty' : is_softmax (l_type la) = true). { rewrite E2. cbn. assert (lv_type lv = Softmax) as -> by congruence. done. }
        pose proof (random_fair E c lp anpl (Z.of_nat j) i label sp m2 la (ll_ns ll) T Hla Hna HM Hsp Hty') as G1.
        pose proof (random_node E c lp anpl (Z.of_nat j) i label sp m2 la (ll_ns ll) T Hla Hna HM Hsp Hty') as G2.
        unfold target_size in G1, G2. rewrite EN in G1, G2. fold share in G1, G2.
        split; [intros s Hs; exact (G1 draws_return s Hs)|intros x Hx; exact (G2 draws_return x Hx)].
      Qed.
    End Mode2.
  End Call.
End Net.
