(** The active nodes of a query, mode by mode. *)
From Verif.Proofs Require Export LayerProofs.
From stdpp Require Import sorting gmap fin_sets.
From Coq Require Import Lia ZifyBool ZifyNat.
Local Open Scope Z_scope.

Lemma distinct_size (l : list Z) : distinct l = Z.of_nat (size (list_to_set l : gset Z)).
Proof.
  unfold distinct. f_equal. rewrite <- (size_list_to_set (C := gset Z)) by apply NoDup_remove_dups. f_equal.
  apply set_eq. intros x. rewrite !elem_of_list_to_set, elem_of_remove_dups. done.
Qed.

Lemma map_pair0 l : map iv_index (map pair0 l) = l.
Proof. rewrite map_map. apply map_id. Qed.

Lemma seqZ_sorted a n : StronglySorted Z.lt (seqZ a n).
Proof.
  destruct (Z.lt_ge_cases n 0); [rewrite seqZ_nil by lia; constructor|].
  revert a. pattern n. apply natlike_ind; [|clear n H; intros n Hn IH|done]; intros a.
  - constructor.
  - rewrite seqZ_cons by lia. rewrite Z.pred_succ. constructor; [apply IH|].
    apply Forall_forall. intros x. rewrite elem_of_seqZ. lia.
Qed.
Lemma filter_sorted {P : Z -> Prop} `{!forall x, Decision (P x)} l : StronglySorted Z.lt l -> StronglySorted Z.lt (filter P l).
Proof.
  intros HS0; induction HS0 as [|x l HS IH HF]; [constructor|]. rewrite filter_cons. destruct (decide (P x)); [|done].
  constructor; [done|]. rewrite Forall_forall in *. intros y [_ Hy]%elem_of_list_filter. by apply HF.
Qed.
Lemma chosen_sorted N X : StronglySorted Z.lt (chosen N X).
Proof. apply filter_sorted, seqZ_sorted. Qed.
Lemma chosen_in N X x : (forall x, x ∈ X -> inr N x) -> x ∈ chosen N X <-> x ∈ X.
Proof.
  intros H. unfold chosen. rewrite elem_of_list_filter, elem_of_seqZ. split; [tauto|]. intros Hx. split; [done|].
  apply H in Hx. unfold inr in Hx. lia.
Qed.
Lemma chosen_length N (X : gset Z) : (forall x, x ∈ X -> inr N x) -> length (chosen N X) = size X.
Proof.
  intros H. rewrite <- (size_list_to_set (C := gset Z)).
  - f_equal. apply set_eq. intros x. rewrite elem_of_list_to_set. by apply chosen_in.
  - apply NoDup_filter, NoDup_seqZ.
Qed.

(** * The vocabulary of the specification *)
Lemma notnil_bind {A B} (o : option A) (f : A -> res B) r : (x ← notnil o; f x) = Ok r <-> exists x, o = Some x /\ f x = Ok r.
Proof. destruct o as [x|]; cbn; [|by split; [|intros (? & ? & _)]]. split; [eauto|]. by intros (? & [= <-] & ?). Qed.
Lemma input_codes_iff E h cur codes : input_codes E h cur codes <-> query_hashes E h cur = Ok codes.
Proof. unfold input_codes, query_hashes. destruct (e_Hash E); try (symmetry; apply notnil_bind). done. Qed.
Lemma weight_codes_iff E h w codes : weight_codes E h w codes <-> weight_hashes E h w [] = Ok codes.
Proof. unfold weight_codes, weight_hashes. destruct (e_Hash E); try (symmetry; apply notnil_bind). done. Qed.
Lemma found_iff E h t cur ids : found E h t cur ids <-> retrieve E h t cur = Ok ids.
Proof.
  unfold found, retrieve. split.
  - intros (codes & bk & HC & HI & HR). apply input_codes_iff in HC. rewrite HC. cbn [mbind res_bind]. rewrite HI. done.
  - intros H. destruct (query_hashes E h cur) as [codes|] eqn:EC; [|done]. cbn [mbind res_bind] in H.
    destruct (lsh_HashesToIndex _ t codes) as [bk|] eqn:EB; [|done]. cbn [mbind res_bind] in H.
    exists codes, bk. split; [by apply input_codes_iff|done].
Qed.
Lemma innerproduct_sum cur w s : innerproduct cur w = Ok s -> inner_sum cur w s.
Proof.
  unfold innerproduct, inner_sum. revert s.
  enough (HZ : forall z s, foldM (fun total p => x ← sget w (iv_index p); Ok (fadd total (fmul (iv_value p) x))) z cur = Ok s ->
    Forall (fun p => 0 <= iv_index p < Z.of_nat (length w)) cur /\
    s = fold_left (fun t p => fadd t (fmul (iv_value p) (default fzero (w !! Z.to_nat (iv_index p))))) cur z) by (intros s; apply HZ).
  induction cur as [|p cur IH]; intros z s; cbn [foldM fold_left].
  - intros [= <-]. split; [constructor|done].
  - destruct (sget w (iv_index p)) as [x|] eqn:Ex; [|done]. cbn [mbind res_bind]. intros H. apply IH in H as [HF ->].
    apply sget_Ok in Ex as [H0 Ex]. split.
    + constructor; [|done]. apply lookup_lt_Some in Ex. lia.
    + by rewrite Ex.
Qed.
Lemma sorted_ranked ps : NoDup (map iv_index ps) -> Forall (fun p => is_nan (iv_value p) = false) ps ->
  StronglySorted not_after ps -> ranked ps.
Proof.
  intros HD HN HS. unfold ranked. induction HS as [|p ps HS IH HF]; [constructor|].
  cbn [map] in HD. apply NoDup_cons in HD as [Hp HD]. apply Forall_cons in HN as [Np HN]. constructor; [by apply IH|].
  apply Forall_forall. intros q Hq. rewrite Forall_forall in HF, HN. specialize (HF q Hq). specialize (HN q Hq).
  unfold not_after, byValue_less in HF. destruct (feqb (iv_value q) (iv_value p)) eqn:Ee.
  - apply feqb_key in Ee as (_ & _ & Ek). split.
    + destruct (fltb (iv_value q) (iv_value p)) eqn:El; [|done]. apply fltb_key in El as (_ & _ & El). rewrite Ek in El.
      destruct (fkey (iv_value p)) as [[x y] z]. cbn in El. lia.
    + intros _. assert (iv_index p <> iv_index q); [|lia]. intros Hi. apply Hp. rewrite Hi. apply elem_of_list_fmap. eauto.
  - split; [done|]. intros Ee'. apply feqb_key in Ee' as (? & ? & Ek). assert (feqb (iv_value q) (iv_value p) = true); [|congruence].
    by apply feqb_key.
Qed.

(** * LayerMode4 *)
Lemma select4_inv E la ns cur label sp m m1 r m2 lp rn t actives :
  layer_at m lp la ns rn t -> e_Mode E = LayerMode4 -> feqb sp fone = false ->
  found E (l_hashers la) t cur actives -> same_but_layers m m1 ->
  layer_select E la ns cur label sp m1 = Ok (r, m2) ->
  exists a i g, select_mode4 (Z.of_nat (length ns)) (is_softmax (l_type la)) (l_l la) rn label actives (m_rng m) = Ok (a, i, g) /\
    r = (Some a, i).
Proof.
  intros [Hla Hns Hrn Ht] HM Hsp Hret [_ Hs] H. apply found_iff in Hret. unfold layer_select in H. rewrite Hsp, HM in H.
  apply bindM_inv in H as (t1 & mx & Ht1 & H). apply load_inv in Ht1 as [Ht1 ->].
  rewrite Hs in Ht1. cbn in Ht1. assert (t1 = t) as -> by congruence.
  apply bindM_inv in H as (ac & mx & Hac & H). apply lift_inv in Hac as [Hac ->].
  rewrite Hret in Hac. injection Hac as <-.
  apply bindM_inv in H as (rn1 & mx & Hrn1 & H). apply load_inv in Hrn1 as [Hrn1 ->].
  rewrite Hs in Hrn1. cbn in Hrn1. assert (rn1 = rn) as -> by congruence.
  apply bindM_inv in H as ([a i] & mx & Ha & H). injection H as <- <-.
  unfold with_rng in Ha. assert (m_rng m1 = m_rng m) as Eg by (rewrite Hs; done). rewrite Eg in Ha.
  destruct (select_mode4 _ _ _ _ _ _ _) as [[[a' i'] g]|] eqn:Es; cbn [mbind res_bind] in Ha; [|done].
  injection Ha as -> -> _. eauto.
Qed.

Lemma query_mode4 E c lp anpl li i label sp m in_ anpl' l' m' la ns rn t cur actives :
  layer_at m lp la ns rn t -> e_Mode E = LayerMode4 -> feqb sp fone = false ->
  rn ≡ₚ seqZ 0 (Z.of_nat (length ns)) -> 0 <= l_l la ->
  sget anpl li = Ok cur -> found E (l_hashers la) t cur actives ->
  layer_Query E c lp anpl li i label sp m = Ok ((in_, anpl', l'), m') ->
  let N := Z.of_nat (length ns) in
  let sm := is_softmax (l_type la) in
  let d := if sm then Z.of_nat (length label) - distinct label else 0 in
  let cc := distinct (candidates sm label actives) in
  exists sel, active_of anpl' li = sel ++ replicate (Z.to_nat d) 0 /\
    StronglySorted Z.lt sel /\ Forall (fun j => 0 <= j < N) (active_of anpl' li) /\
    (forall j, j ∈ candidates sm label actives -> j ∈ sel) /\
    Z.of_nat (length sel) = Z.max cc (Z.min (1000 - d) N) /\ 0 <= d /\ in_ = cc + d /\ 0 < N /\
    exists start, start = Z.to_nat (rstream (m_rng m) (rpos (m_rng m)) mod N) /\ (start < length rn)%nat /\
      forall j, j ∈ sel <-> j ∈ candidates sm label actives \/ j ∈ fill (candidates sm label actives) rn in_ start.
Proof.
  intros AT HM Hsp Hrn HL Hcur Hret H N sm d cc.
  destruct (query_inv _ _ _ _ _ _ _ _ _ _ _ _ _ _ _ (at_layer _ _ _ _ _ _ AT) (at_nodes _ _ _ _ _ _ AT) H)
    as (cur0 & sel & m1 & m2 & Hc & HS & Hsel & Hact & _ & HR & _).
  rewrite Hcur in Hc. injection Hc as <-.
  specialize (HR (select_na_shape _ _ _ _ _ _ _ _ _ _ HS Hsel)).
  destruct (select4_inv _ _ _ _ _ _ _ _ _ _ _ _ _ _ AT HM Hsp Hret HS Hsel) as (a & i0 & g & Es & Er).
  injection Er as -> ->.
  destruct (select_mode4_range _ _ _ _ _ _ _ _ (Zle_0_nat (length ns)) Es) as [HN HC].
  destruct (select_mode4_total N sm (l_l la) rn label actives (m_rng m) HN HL Hrn HC)
    as (X & g' & Es' & HX & Hcand & Hsize & Hd & _ & start & Hdraw & Hst & Hfill).
  unfold N, sm in Es'. rewrite Es in Es'. injection Es' as Ea Ei _.
  assert (Ed : (if sm then Z.of_nat (length label) - Z.of_nat (size (list_to_set label : gset Z)) else 0) = d).
  { unfold d. by rewrite distinct_size. }
  fold sm in Ea, Ei. rewrite Ed in *. rewrite <- distinct_size in Hsize, Ei, Hfill. fold cc in Hsize, Ei, Hfill.
  exists (chosen N X). rewrite Hact, Ea, map_pair0.
  split; [done|]. split; [apply chosen_sorted|]. split; [by rewrite Hact, Ea, map_pair0 in HR|].
  split; [intros j Hj; apply chosen_in; auto|]. split; [rewrite chosen_length by done; lia|].
  split; [done|]. split; [done|]. split; [done|]. exists start. split; [exact Hdraw|].
  split; [rewrite Hrn, seqZ_length; unfold N in Hst; lia|]. intros j. rewrite chosen_in by done. rewrite Hfill, Ei. done.
Qed.

Lemma distinct_NoDup l : NoDup l -> distinct l = Z.of_nat (length l).
Proof. intros H. rewrite distinct_size. by rewrite size_list_to_set. Qed.
Lemma distinct_le l : distinct l <= Z.of_nat (length l).
Proof. rewrite distinct_size. pose proof (size_list_le l). lia. Qed.
Lemma distinct_dup l : ~ NoDup l -> distinct l < Z.of_nat (length l).
Proof.
  induction l as [|x l IH]; intros H; [destruct H; constructor|].
  unfold distinct in *. cbn [remove_dups]. destruct (decide_rel elem_of x l) as [Hx|Hx].
  - pose proof (distinct_le l). unfold distinct in *. cbn [length]. lia.
  - cbn [length]. assert (~ NoDup l) as Hn by (intros Hn; apply H; by constructor). specialize (IH Hn). lia.
Qed.

Lemma query_mode4_nodup E c lp anpl li i label sp m in_ anpl' l' m' la ns rn t cur actives :
  layer_at m lp la ns rn t -> e_Mode E = LayerMode4 -> feqb sp fone = false ->
  rn ≡ₚ seqZ 0 (Z.of_nat (length ns)) -> 0 <= l_l la ->
  sget anpl li = Ok cur -> found E (l_hashers la) t cur actives -> NoDup label ->
  layer_Query E c lp anpl li i label sp m = Ok ((in_, anpl', l'), m') ->
  let N := Z.of_nat (length ns) in
  let cand := candidates (is_softmax (l_type la)) label actives in
  let act := active_of anpl' li in
  StronglySorted Z.lt act /\ Forall (fun j => 0 <= j < N) act /\ (forall j, j ∈ cand -> j ∈ act) /\
  Z.of_nat (length act) = Z.max (distinct cand) (Z.min 1000 N) /\ in_ = distinct cand /\
  exists start, start = Z.to_nat (rstream (m_rng m) (rpos (m_rng m)) mod N) /\ (start < length rn)%nat /\ forall j, j ∈ act <-> j ∈ cand \/ j ∈ fill cand rn in_ start.
Proof.
  intros AT HM Hsp Hrn HL Hcur Hret HND H N cand act.
  destruct (query_mode4 _ _ _ _ _ _ _ _ _ _ _ _ _ _ _ _ _ _ _ AT HM Hsp Hrn HL Hcur Hret H)
    as (sel & Ha & Hs & HF & Hc & Hl & Hd & Hin & HN & Hfill).
  assert (E0 : (if is_softmax (l_type la) then Z.of_nat (length label) - distinct label else 0) = 0).
  { destruct (is_softmax _); [|done]. rewrite distinct_NoDup by done. lia. }
  cbv zeta in Ha, Hl, Hin. rewrite E0 in Ha, Hl, Hin. cbn [Z.to_nat replicate] in Ha. rewrite app_nil_r in Ha.
  unfold act. rewrite Ha in *. split; [done|]. split; [done|]. split; [done|].
  split; [rewrite Hl; unfold N, cand; lia|]. split; [rewrite Hin; unfold cand; lia|]. done.
Qed.

Lemma query_mode4_sorted_iff E c lp anpl li i label sp m in_ anpl' l' m' la ns rn t cur actives :
  layer_at m lp la ns rn t -> e_Mode E = LayerMode4 -> feqb sp fone = false ->
  rn ≡ₚ seqZ 0 (Z.of_nat (length ns)) -> 0 <= l_l la ->
  sget anpl li = Ok cur -> found E (l_hashers la) t cur actives -> is_softmax (l_type la) = true ->
  layer_Query E c lp anpl li i label sp m = Ok ((in_, anpl', l'), m') ->
  ~ NoDup label -> ~ StronglySorted Z.lt (active_of anpl' li).
Proof.
  intros AT HM Hsp Hrn HL Hcur Hret Hsm H HD.
  destruct (query_mode4 _ _ _ _ _ _ _ _ _ _ _ _ _ _ _ _ _ _ _ AT HM Hsp Hrn HL Hcur Hret H)
    as (sel & Ha & Hs & HF & Hc & Hl & Hd & Hin & HN & Hfill).
  cbv zeta in *. rewrite Hsm in *. pose proof (distinct_dup _ HD) as Hlt.
  destruct label as [|x label]; [destruct HD; constructor|].
  assert (Hx : x ∈ sel) by (apply Hc; left).
  replace (Z.to_nat (Z.of_nat (length (x :: label)) - distinct (x :: label)))
    with (S (Z.to_nat (Z.of_nat (length (x :: label)) - distinct (x :: label)) - 1)) in Ha by lia.
  cbn [replicate] in Ha. rewrite Ha in *. intros HSS.
  assert (Hlt0 : x < 0).
  { apply (elem_of_StronglySorted_app Z.lt sel (0 :: replicate (Z.to_nat (Z.of_nat (length (x :: label)) - distinct (x :: label)) - 1) 0)); [done|done|left]. }
  rewrite Forall_forall in HF. assert (0 <= x < Z.of_nat (length ns)) by (apply HF; set_solver). lia.
Qed.

Lemma sorted_full N (l : list Z) : 0 <= N -> StronglySorted Z.lt l -> Forall (fun j => 0 <= j < N) l ->
  Z.of_nat (length l) = N -> l = seqZ 0 N.
Proof.
  intros HN HS HF Hl.
  assert (HND : NoDup l).
  { clear -HS. induction HS as [|x l H IH HF]; constructor; [|done]. rewrite Forall_forall in HF.
    intros Hx. specialize (HF _ Hx). lia. }
  assert (l ≡ₚ seqZ 0 N) as HP.
  { apply submseteq_Permutation_length_eq; [rewrite seqZ_length; lia|].
    - apply NoDup_submseteq; [done|]. intros x Hx. rewrite Forall_forall in HF. apply elem_of_seqZ. specialize (HF x Hx). lia. }
  assert (AntiSymm (=) Z.lt) by (intros x y ??; lia).
  eapply (StronglySorted_unique Z.lt); [done|apply seqZ_sorted|done].
Qed.

Lemma query_mode4_small E c lp anpl li i label sp m in_ anpl' l' m' la ns rn t cur actives :
  layer_at m lp la ns rn t -> e_Mode E = LayerMode4 -> feqb sp fone = false ->
  rn ≡ₚ seqZ 0 (Z.of_nat (length ns)) -> 0 <= l_l la ->
  sget anpl li = Ok cur -> found E (l_hashers la) t cur actives ->
  Z.of_nat (length ns) + Z.of_nat (length label) <= 1000 ->
  layer_Query E c lp anpl li i label sp m = Ok ((in_, anpl', l'), m') ->
  exists d, active_of anpl' li = seqZ 0 (Z.of_nat (length ns)) ++ replicate d 0.
Proof.
  intros AT HM Hsp Hrn HL Hcur Hret Hle H.
  destruct (query_mode4 _ _ _ _ _ _ _ _ _ _ _ _ _ _ _ _ _ _ _ AT HM Hsp Hrn HL Hcur Hret H)
    as (sel & Ha & Hs & HF & Hc & Hl & Hd & Hin & HN & Hfill). cbv zeta in *.
  eexists. rewrite Ha. f_equal. rewrite Ha in HF. apply Forall_app in HF as [HF _].
  apply sorted_full; [lia|done|done|]. rewrite Hl.
  assert (distinct (candidates (is_softmax (l_type la)) label actives) <= Z.of_nat (length ns)) as Hcn.
  { rewrite distinct_size. pose proof (size_full (Z.of_nat (length ns)) ltac:(lia)) as Hf.
    assert (size (list_to_set (candidates (is_softmax (l_type la)) label actives) : gset Z) <=
      size (list_to_set (seqZ 0 (Z.of_nat (length ns))) : gset Z))%nat; [|lia].
    apply subseteq_size. intros x. rewrite !elem_of_list_to_set, elem_of_seqZ. intros Hx.
    rewrite Forall_forall in HF. specialize (HF x (Hc x Hx)). lia. }
  assert ((if is_softmax (l_type la) then Z.of_nat (length label) - distinct label else 0) <= Z.of_nat (length label)).
  { destruct (is_softmax _); unfold distinct; lia. }
  lia.
Qed.

(** * LayerMode1 *)
Lemma query_mode1 E c lp anpl li i label sp m in_ anpl' l' m' la ns rn t cur actives :
  layer_at m lp la ns rn t -> e_Mode E = LayerMode1 -> feqb sp fone = false ->
  sget anpl li = Ok cur -> found E (l_hashers la) t cur actives ->
  layer_Query E c lp anpl li i label sp m = Ok ((in_, anpl', l'), m') ->
  let act := active_of anpl' li in
  NoDup act /\ Forall (fun j => 0 <= j < Z.of_nat (length ns)) act /\
  (forall j, j ∈ act <-> 2 < tally (is_softmax (l_type la)) (l_l la) label actives j) /\
  in_ = Z.of_nat (length act).
Proof.
  intros AT HM Hsp Hcur Hret H act. apply found_iff in Hret.
  destruct (query_inv _ _ _ _ _ _ _ _ _ _ _ _ _ _ _ (at_layer _ _ _ _ _ _ AT) (at_nodes _ _ _ _ _ _ AT) H)
    as (cur0 & sel & m1 & m2 & Hc & HS & Hsel & Hact & _ & HR & _).
  rewrite Hcur in Hc. injection Hc as <-.
  specialize (HR (select_na_shape _ _ _ _ _ _ _ _ _ _ HS Hsel)).
  destruct AT as [Hla Hns Hrn Ht]. destruct HS as [_ HS].
  unfold layer_select in Hsel. rewrite Hsp, HM in Hsel.
  apply bindM_inv in Hsel as (t1 & mx & Ht1 & Hsel). apply load_inv in Ht1 as [Ht1 ->].
  rewrite HS in Ht1. cbn in Ht1. assert (t1 = t) as -> by congruence.
  apply bindM_inv in Hsel as (ac & mx & Hac & Hsel). apply lift_inv in Hac as [Hac ->].
  rewrite Hret in Hac. injection Hac as <-.
  apply bindM_inv in Hsel as (vect & mx & Ha & Hsel). injection Hsel as <- <- <-.
  unfold with_rng in Ha. destruct (select_mode1 _ _ _ _ (m_rng m1)) as [v g] eqn:Es. injection Ha as -> _.
  destruct (select_mode1_spec _ _ _ _ _ _ _ Es) as (al & -> & HND & Hiff & _).
  unfold act. rewrite Hact, map_pair0 in *. split; [done|]. split; [done|]. split; [done|]. by rewrite map_length.
Qed.

(** * LayerMode2 *)
Lemma query_mode2 E c lp anpl li i label sp m in_ anpl' l' m' la ns :
  m_layer m !! lp = Some la -> m_na m !! l_nodes la = Some ns ->
  e_Mode E = LayerMode2 -> feqb sp fone = false -> is_softmax (l_type la) = true -> NoDup label ->
  layer_Query E c lp anpl li i label sp m = Ok ((in_, anpl', l'), m') ->
  let act := active_of anpl' li in
  NoDup act /\ Forall (fun j => 0 <= j < Z.of_nat (length ns)) act /\
  Z.of_nat (length act) = target_size ns sp /\ label `prefix_of` act.
Proof.
  intros Hla Hns HM Hsp Hsm HND H act.
  destruct (query_inv _ _ _ _ _ _ _ _ _ _ _ _ _ _ _ Hla Hns H)
    as (cur0 & sel & m1 & m2 & Hc & HS & Hsel & Hact & _ & HR & _).
  specialize (HR (select_na_shape _ _ _ _ _ _ _ _ _ _ HS Hsel)).
  unfold layer_select in Hsel. rewrite Hsp, HM, Hsm in Hsel.
  apply bindM_inv in Hsel as (a & mx & Ha & Hsel). injection Hsel as <- <- <-.
  unfold with_rng in Ha. destruct (select_mode2 _ _ _ _ (m_rng m1)) as [[v g]|] eqn:Es; [|done]. injection Ha as -> _.
  destruct (select_mode2_spec _ _ _ _ _ _ _ Es) as (rest & -> & Hlen & HN0 & HX & _ & _).
  assert (HN : NoDup (label ++ rest)).
  { apply NoDup_app. split; [done|]. split; [|done]. rewrite Forall_forall in HX. intros x Hx Hr. by apply (HX x Hr). }
  unfold act. rewrite Hact, map_pair0 in *. split; [done|]. split; [done|]. split; [done|]. by apply prefix_app_r.
Qed.

(** * LayerMode3 *)
Lemma mmap_params ns : forall m ws m',
  mmap (fun p => b ← get_base p; w ← fread (b_weights b); mret (w, b_bias b)) ns m = Ok (ws, m') ->
  m' = m /\ Forall2 (fun n '(w, b) => node_params m n w b) ns ws.
Proof.
  induction ns as [|n ns IH]; intros m ws m'; cbn [mmap].
  - intros [= <- <-]. done.
  - intros H. apply bindM_inv in H as (wb & m1 & H1 & H). apply bindM_inv in H as (ws0 & m2 & H2 & H).
    injection H as <- <-.
    apply bindM_inv in H1 as (b & m3 & Hb & H1). unfold get_base in Hb.
    apply bindM_inv in Hb as (nd & m4' & Hnd & Hb). apply load_inv in Hnd as [Hnd ->]. apply load_inv in Hb as [Hb ->].
    apply bindM_inv in H1 as (w & m5 & Hw & H1). injection H1 as <- <-.
    assert (m5 = m) as ->.
    { unfold fread in Hw. destruct (fs_len _ <=? 0); [by injection Hw|].
      apply bindM_inv in Hw as (? & ? & Hw0 & Hw). apply load_inv in Hw0 as [_ ->]. by injection Hw. }
    destruct (IH _ _ _ H2) as [-> HF]. split; [done|]. constructor; [|done]. exists nd, b. done.
Qed.

Lemma query_mode3 E c lp anpl li i label sp m in_ anpl' l' m' la ns cur :
  m_layer m !! lp = Some la -> m_na m !! l_nodes la = Some ns ->
  e_Mode E = LayerMode3 -> feqb sp fone = false -> is_softmax (l_type la) = true ->
  sget anpl li = Ok cur ->
  layer_Query E c lp anpl li i label sp m = Ok ((in_, anpl', l'), m') ->
  exists ws keys rest,
    Forall2 (fun n '(w, b) => node_params m n w b) ns ws /\
    mode3_keys label cur ws = Ok keys /\
    Z.of_nat (length ns) + Z.of_nat rest = target_size ns sp /\
    active_of anpl' li = map iv_index (sort_pairs keys) ++ replicate rest 0.
Proof.
  intros Hla Hns HM Hsp Hsm Hcur H.
  destruct (query_inv _ _ _ _ _ _ _ _ _ _ _ _ _ _ _ Hla Hns H)
    as (cur0 & sel & m1 & m2 & Hc & HS & Hsel & Hact & _ & HR & _).
  rewrite Hcur in Hc. injection Hc as <-.
  unfold layer_select in Hsel. rewrite Hsp, HM, Hsm in Hsel.
  apply bindM_inv in Hsel as (ws & mx & Hws & Hsel). apply mmap_params in Hws as [-> HF].
  apply bindM_inv in Hsel as ([a i0] & mx & Ha & Hsel). injection Hsel as <- <- <-.
  apply lift_inv in Ha as [Ha ->].
  destruct (select_mode3_spec _ _ _ _ _ _ _ Ha) as (keys & rest & HK & Hl & ->).
  exists ws, keys, rest. split.
  { eapply Forall2_impl; [exact HF|]. intros n [w b] (nd & ba & H1 & H2 & H3 & H4).
    destruct HS as [_ HS]. rewrite HS in H1, H2, H3. exists nd, ba. split; [done|]. split; [done|]. split; [|done].
    revert H3. unfold fread. destruct (fs_len _ <=? 0); [by intros [= ->]|]. unfold mbind, M_bind, load. cbn.
    destruct (m_f m !! _); [|done]. by intros [= ->]. }
  split; [done|]. rewrite Hact, map_pair0. split; [|done].
  rewrite (Forall2_length _ _ _ HF). unfold target_size. done.
Qed.

Lemma intSliceContains_elem l x : intSliceContains l x = bool_decide (x ∈ l).
Proof.
  unfold intSliceContains. apply eq_bool_prop_intro. rewrite bool_decide_spec, existb_True, Exists_exists.
  split; [intros (y & Hy & Hxy)|intros Hx; exists x; split; [done|]].
  - apply Is_true_eq_true in Hxy. assert (y = x) as -> by lia. done.
  - apply Is_true_eq_left. lia.
Qed.

Lemma indexed_at {A} (xs : list A) i j x : indexed xs !! i = Some (j, x) -> j = Z.of_nat i /\ xs !! i = Some x.
Proof.
  unfold indexed. rewrite lookup_zip_with_Some. intros (a & b & [= <- <-] & H1 & H2). apply lookup_seqZ in H1. split; [lia|done].
Qed.

Lemma mode3_keys_rank label cur ws keys : mode3_keys label cur ws = Ok keys ->
  forall k p, keys !! k = Some p -> exists w b, ws !! k = Some (w, b) /\ iv_index p = Z.of_nat k /\
    rank_key label cur (iv_index p) w b (iv_value p).
Proof.
  intros HK k p Hp. apply mapM_res_Forall2 in HK.
  destruct (Forall2_lookup_r _ _ _ _ _ HK Hp) as ([s [w b]] & Hs & He). apply indexed_at in Hs as [-> Hs].
  destruct (innerproduct cur w) as [t|] eqn:Et; [|done]. cbn [mbind res_bind] in He. injection He as <-. cbn [iv_index iv_value].
  exists w, b. split; [done|]. split; [done|]. unfold rank_key. rewrite intSliceContains_elem.
  case_bool_decide; [done|]. exists t. split; [by apply innerproduct_sum|done].
Qed.

Lemma query_mode3_ranked E c lp anpl li i label sp m in_ anpl' l' m' la ns cur :
  m_layer m !! lp = Some la -> m_na m !! l_nodes la = Some ns ->
  e_Mode E = LayerMode3 -> feqb sp fone = false -> is_softmax (l_type la) = true ->
  sget anpl li = Ok cur ->
  layer_Query E c lp anpl li i label sp m = Ok ((in_, anpl', l'), m') ->
  exists ps rest,
    active_of anpl' li = map iv_index ps ++ replicate rest 0 /\
    Z.of_nat (length ns) + Z.of_nat rest = target_size ns sp /\
    map iv_index ps ≡ₚ seqZ 0 (Z.of_nat (length ns)) /\
    (forall p, p ∈ ps -> exists n w b, ns !! Z.to_nat (iv_index p) = Some n /\ node_params m n w b /\
       rank_key label cur (iv_index p) w b (iv_value p)) /\
    (Forall (fun p => is_nan (iv_value p) = false) ps ->
       ranked ps).
Proof.
  intros Hla Hns HM Hsp Hsm Hcur H.
  destruct (query_mode3 _ _ _ _ _ _ _ _ _ _ _ _ _ _ _ _ Hla Hns HM Hsp Hsm Hcur H) as (ws & keys & rest & HF & HK & Hl & Ha).
  pose proof (sort_pairs_perm keys) as HP. pose proof (mode3_keys_index _ _ _ _ HK) as HI.
  exists (sort_pairs keys), rest. split; [done|]. split; [done|]. split.
  { rewrite HP, HI. by rewrite (Forall2_length _ _ _ HF). }
  split.
  - intros p Hp. rewrite HP in Hp. apply elem_of_list_lookup in Hp as [k Hk].
    destruct (mode3_keys_rank _ _ _ _ HK _ _ Hk) as (w & b & Hw & Hi & HR). destruct (Forall2_lookup_r _ _ _ _ _ HF Hw) as (n & Hn & Hnp).
    exists n, w, b. rewrite Hi, Nat2Z.id. rewrite <- Hi. done.
  - intros HN. apply sorted_ranked; [|done|].
    + rewrite HP, HI. apply NoDup_seqZ.
    + apply sort_pairs_sorted. unfold no_nans. by rewrite <- HP.
Qed.

Lemma query_mode3_never E c lp anpl li i label sp m la ns cur r :
  m_layer m !! lp = Some la -> m_na m !! l_nodes la = Some ns ->
  e_Mode E = LayerMode3 -> feqb sp fone = false -> is_softmax (l_type la) = true ->
  sget anpl li = Ok cur -> target_size ns sp < Z.of_nat (length ns) ->
  layer_Query E c lp anpl li i label sp m <> Ok r.
Proof.
  intros Hla Hns HM Hsp Hsm Hcur Ht H. destruct r as [[[in_ anpl'] l'] m'].
  destruct (query_mode3 _ _ _ _ _ _ _ _ _ _ _ _ _ _ _ _ Hla Hns HM Hsp Hsm Hcur H) as (ws & keys & rest & HF & HK & Hl & Ha). lia.
Qed.

(** In LayerMode1 a label reaches the threshold by itself exactly when there are at least three tables. *)
Lemma query_mode1_labels E c lp anpl li i label sp m in_ anpl' l' m' la ns rn t cur actives j :
  layer_at m lp la ns rn t -> e_Mode E = LayerMode1 -> feqb sp fone = false ->
  sget anpl li = Ok cur -> found E (l_hashers la) t cur actives -> is_softmax (l_type la) = true ->
  layer_Query E c lp anpl li i label sp m = Ok ((in_, anpl', l'), m') -> j ∈ label ->
  3 <= l_l la -> j ∈ active_of anpl' li.
Proof.
  intros AT HM Hsp Hcur Hret Hsm H Hj.
  destruct (query_mode1 _ _ _ _ _ _ _ _ _ _ _ _ _ _ _ _ _ _ _ AT HM Hsp Hcur Hret H) as (_ & _ & Hiff & _).
  rewrite Hiff. unfold tally. rewrite Hsm, bool_decide_true by done. cbn [andb].
  unfold occ. lia.
Qed.
Lemma query_mode1_no_labels E c lp anpl li i label sp m in_ anpl' l' m' la ns rn t cur actives j :
  layer_at m lp la ns rn t -> e_Mode E = LayerMode1 -> feqb sp fone = false ->
  sget anpl li = Ok cur -> found E (l_hashers la) t cur actives -> is_softmax (l_type la) = true ->
  layer_Query E c lp anpl li i label sp m = Ok ((in_, anpl', l'), m') -> j ∈ label ->
  l_l la <= 2 -> j ∉ concat actives -> j ∉ active_of anpl' li.
Proof.
  intros AT HM Hsp Hcur Hret Hsm H Hj.
  destruct (query_mode1 _ _ _ _ _ _ _ _ _ _ _ _ _ _ _ _ _ _ _ AT HM Hsp Hcur Hret H) as (_ & _ & Hiff & _).
  rewrite Hiff. unfold tally. rewrite Hsm, bool_decide_true by done. cbn [andb].
  intros HL Hn. unfold occ. replace (filter (fun x => x = j) (concat actives)) with (@nil Z); [cbn; lia|].
  symmetry. clear -Hn. induction (concat actives) as [|x l IH]; [done|]. rewrite filter_cons_False by set_solver. apply IH. set_solver.
Qed.
