(** Every call on a well-shaped network succeeds. *)
From Verif.Proofs Require Import FifoProofs LshProofs SelectProofs NetCalls NetRng.
From Verif.Spec Require Import LshSpec LayerSpec SafeSpec.
From stdpp Require Import sorting.
Local Open Scope Z_scope.

(** * Loops that always succeed *)
Lemma foldM_total {S A} (P : list A -> S -> Prop) (f : S -> A -> res S) xs s :
  P [] s -> (forall pre x s0, P pre s0 -> pre ++ [x] `prefix_of` xs -> exists s1, f s0 x = Ok s1 /\ P (pre ++ [x]) s1) ->
  exists s', foldM f s xs = Ok s' /\ P xs s'.
Proof.
  intros H0 Hs. assert (G : forall post pre s0, xs = pre ++ post -> P pre s0 -> exists s', foldM f s0 post = Ok s' /\ P xs s').
  { induction post as [|x post IH]; intros pre s0 -> Hp; cbn [foldM].
    - exists s0. rewrite app_nil_r. done.
    - destruct (Hs pre x s0 Hp) as (s1 & E1 & P1); [exists post; by rewrite <- (assoc_L (++))|]. rewrite E1.
      apply (IH (pre ++ [x])); [by rewrite <- (assoc_L (++))|done]. }
  by apply (G xs []).
Qed.
Lemma foldM_total' {S A} (P : S -> Prop) (f : S -> A -> res S) xs s :
  P s -> (forall x s0, P s0 -> x ∈ xs -> exists s1, f s0 x = Ok s1 /\ P s1) -> exists s', foldM f s xs = Ok s' /\ P s'.
Proof.
  intros H0 Hs. apply (foldM_total (fun _ => P)); [done|]. intros pre x s0 Hp [q ->]. apply Hs; [done|]. set_solver.
Qed.
(** The same when a step is only known to succeed if it does not run out of fuel, which can happen only if [bad] and not [fair]. *)
Lemma foldM_live {S A} (bad fair : Prop) (P : list A -> S -> Prop) (f : S -> A -> res S) xs s :
  P [] s -> (bad -> fair \/ foldM f s xs <> Panic PFuel) ->
  (forall pre x s0, P pre s0 -> pre ++ [x] `prefix_of` xs -> (bad -> fair \/ f s0 x <> Panic PFuel) -> exists s1, f s0 x = Ok s1 /\ P (pre ++ [x]) s1) ->
  exists s', foldM f s xs = Ok s' /\ P xs s'.
Proof.
  intros H0 HN Hs.
  assert (G : forall post pre s0, xs = pre ++ post -> (bad -> fair \/ foldM f s0 post <> Panic PFuel) -> P pre s0 -> exists s', foldM f s0 post = Ok s' /\ P xs s').
  { induction post as [|x post IH]; intros pre s0 -> Hb Hp; cbn [foldM] in *.
    - exists s0. rewrite app_nil_r. done.
    - destruct (Hs pre x s0 Hp) as (s1 & E1 & P1); [exists post; by rewrite <- (assoc_L (++))|intros B; destruct (Hb B) as [F|N]; [by left|right; intros Hf; apply N; by rewrite Hf]|].
      rewrite E1 in *. apply (IH (pre ++ [x])); [by rewrite <- (assoc_L (++))|done..]. }
  by apply (G xs []).
Qed.
Lemma prefix_elem {A} (pre : list A) x xs : pre ++ [x] `prefix_of` xs -> x ∈ xs.
Proof. intros [q ->]. set_solver. Qed.
Lemma sget_in {A} (xs : list A) i : 0 <= i < Z.of_nat (length xs) -> exists x, sget xs i = Ok x /\ xs !! Z.to_nat i = Some x.
Proof. intros Hi. destruct (lookup_lt_is_Some_2 xs (Z.to_nat i)) as [x Hx]; [lia|]. exists x. split; [|done]. apply sget_Ok. lia || (split; [lia|done]). Qed.
Lemma sset_in {A} (xs : list A) i x : 0 <= i < Z.of_nat (length xs) -> sset xs i x = Ok (<[Z.to_nat i := x]> xs).
Proof. intros Hi. apply sset_Ok. split; [lia|done]. Qed.

(** * The forward pass *)
Definition in_range (n : nat) (p : Pair) : Prop := 0 <= iv_index p < Z.of_nat n.

Lemma weighted_sum_total w cur : Forall (in_range (length w)) cur -> exists s, weighted_sum w cur = Ok s.
Proof.
  intros HF. unfold weighted_sum. destruct (foldM_total' (fun _ => True) (fun s p => x ← sget w (iv_index p); Ok (fadd s (fmul x (iv_value p)))) cur fzero) as (s & E & _); [done| |by exists s].
  intros p s _ Hp. rewrite Forall_forall in HF. destruct (sget_in w (iv_index p) (HF _ Hp)) as (x & -> & _). cbn. eauto.
Qed.

(** What a node must look like for the calls on it. *)
Definition node_fit (adam : bool) (ty : NodeType) (batch prev : nat) (v : NodeView) : Prop :=
  v_type v = ty /\ v_batch v = Z.of_nat batch /\ length (v_w v) = prev /\ (adam = true -> length (v_t v) = prev) /\ length (v_slots v) = batch.
Lemma shape_fit adam ty batch prev i v : node_shape adam ty batch prev i v -> node_fit adam ty batch prev v.
Proof.
  intros [HI ? HA ? _]. unfold identity in HI. injection HI as ? ? _. split_and!; try done.
  intros ->. apply HA.
Qed.
Lemma fit_set_slot adam ty batch prev v i s : node_fit adam ty batch prev v -> node_fit adam ty batch prev (v_set_slot v i s).
Proof. intros (?&?&?&?&?). split_and!; try done. cbn. by rewrite insert_length. Qed.

Lemma activate_total adam ty batch prev v cur i : node_fit adam ty batch prev v -> ty <> TypeOther ->
  0 <= i < Z.of_nat batch -> Forall (in_range prev) cur ->
  exists a v', ref_activate v cur i = Ok (a, v') /\ node_fit adam ty batch prev v'.
Proof.
  intros F Ht Hi Hc. pose proof F as (Hty & Hb & Hw & _ & Hs). unfold ref_activate. rewrite Hb.
  destruct (Z.ltb_spec (Z.of_nat batch) i) as [?|_]; [lia|].
  destruct (sget_in (v_slots v) i) as (s & -> & _); [lia|]. cbn [mbind res_bind].
  destruct (weighted_sum_total (v_w v) cur) as [x ->]; [by rewrite Hw|]. cbn [mbind res_bind].
  rewrite Hty. destruct ty; [destruct (fltb _ _)|..]; try done; do 2 eexists; (split; [reflexivity|by apply fit_set_slot]).
Qed.

Lemma act_total adam ty batch prev sm cur i next : ty <> TypeOther -> 0 <= i < Z.of_nat batch -> Forall (in_range prev) cur ->
  forall vs mx, Forall (node_fit adam ty batch prev) vs -> Forall (in_range (length vs)) next ->
  exists vs' out mx', foldM (ref_act_step sm cur i) (vs, ([], mx)) next = Ok (vs', (out, mx')) /\
    Forall (node_fit adam ty batch prev) vs' /\ length vs' = length vs /\ map iv_index out = map iv_index next.
Proof.
  intros Ht Hi Hc vs mx HF Hn.
  set (P := fun (pre : list Pair) (st : list NodeView * (list Pair * float64)) =>
    Forall (node_fit adam ty batch prev) st.1 /\ length st.1 = length vs /\ map iv_index st.2.1 = map iv_index pre).
  destruct (foldM_total P (ref_act_step sm cur i) next (vs, ([], mx))) as ([vs' [out mx']] & E & (?&?&?)); [done| |by eauto 10].
  intros pre p [vs1 [out1 mx1]] (F1 & L1 & O1) Hp%prefix_elem. cbn in F1, L1, O1. unfold ref_act_step.
  rewrite Forall_forall in Hn. destruct (sget_in vs1 (iv_index p)) as (v & -> & Hv); [rewrite L1; by apply Hn|]. cbn [mbind res_bind].
  destruct (activate_total adam ty batch prev v cur i) as (a & v' & -> & Fv); try done; [by eapply Forall_lookup_1|]. cbn [mbind res_bind].
  eexists. split; [reflexivity|]. unfold P. cbn. split_and!; [by apply Forall_insert|by rewrite insert_length|by rewrite !map_app, O1].
Qed.
Lemma soft_total E adam ty batch prev i mx next : 0 <= i < Z.of_nat batch ->
  forall vs norm, Forall (node_fit adam ty batch prev) vs -> Forall (in_range (length vs)) next -> length norm = batch ->
  exists vs' norm' out, foldM (ref_soft_step E i mx) (vs, norm, []) next = Ok (vs', norm', out) /\ map iv_index out = map iv_index next.
Proof.
  intros Hi vs norm HF Hn HN.
  set (P := fun (pre : list Pair) (st : list NodeView * list float64 * list Pair) =>
    Forall (node_fit adam ty batch prev) st.1.1 /\ length st.1.1 = length vs /\ length st.1.2 = batch /\ map iv_index st.2 = map iv_index pre).
  destruct (foldM_total P (ref_soft_step E i mx) next (vs, norm, [])) as ([[vs' norm'] out] & Er & (?&?&?&?)); [done| |by eauto 10].
  intros pre p [[vs1 norm1] out1] (F1 & L1 & N1 & O1) Hp%prefix_elem. cbn in F1, L1, N1, O1. unfold ref_soft_step.
  rewrite Forall_forall in Hn. destruct (sget_in vs1 (iv_index p)) as (v & -> & Hv); [rewrite L1; by apply Hn|]. cbn [mbind res_bind].
  assert (Fv : node_fit adam ty batch prev v) by (by eapply Forall_lookup_1).
  unfold ref_set_act. destruct (sget_in (v_slots v) i) as (s & -> & _); [destruct Fv as (_&_&_&_&->); lia|]. cbn [mbind res_bind].
  destruct (sget_in norm1 i) as (x & -> & _); [lia|]. cbn [mbind res_bind]. rewrite sset_in by lia. cbn [mbind res_bind].
  eexists. split; [reflexivity|]. unfold P. cbn. split_and!; [apply Forall_insert; [done|by apply fit_set_slot]|by rewrite insert_length|by rewrite insert_length|by rewrite !map_app, O1].
Qed.

(** Hash functions and tables that never fail. *)
Record hash_works (E : env) (k l rp prev : Z) : Prop := mkHashWorks {
  hw_l : 0 <= l; hw_rp : 0 <= rp <= 62;
  hw_make : forall h0 s g, exists h g', make_hashers E h0 (e_mh E s) k l prev g = Ok (h, g');
  hw_query : forall h t n cur, made_hashers E k l prev h -> used_tables k l rp n t -> Z.of_nat (length cur) <= prev ->
    exists hs ix, query_hashes E h cur = Ok hs /\ lsh_HashesToIndex (e_Hash E) t hs = Ok ix /\ valid_indices l rp ix;
  hw_weight : forall h t n w, made_hashers E k l prev h -> used_tables k l rp n t -> Z.of_nat (length w) = prev ->
    exists hs ix, weight_hashes E h w [] = Ok hs /\ lsh_HashesToIndex (e_Hash E) t hs = Ok ix /\ valid_indices l rp ix
}.

Lemma routed_range n ops table index x :
  Forall (fun o => match o with LAdd _ id => 0 <= id < Z.of_nat n | LAddSingle _ _ id => 0 <= id < Z.of_nat n | LClear => True end) ops ->
  x ∈ routed ops table index -> 0 <= x < Z.of_nat n.
Proof.
  induction ops as [|o ops IH] using rev_ind; intros HF; [by intros ?%elem_of_nil|]. apply Forall_app in HF as [HF Ho]. rewrite Forall_singleton in Ho.
  rewrite routed_snoc. specialize (IH HF). destruct o as [ix id|tb ix id|]; [destruct (decide _)|destruct (decide _)|].
  1, 3: rewrite elem_of_app, elem_of_list_singleton; intros [?| ->]; [by apply IH|exact Ho].
  1, 2: exact IH.
  by intros ?%elem_of_nil.
Qed.
Lemma retrieve_total E k l rp prev h t n cur : hash_works E k l rp prev -> made_hashers E k l prev h -> used_tables k l rp n t ->
  Z.of_nat (length cur) <= prev ->
  exists actives, retrieve E h t cur = Ok actives /\ Forall (fun x => 0 <= x < Z.of_nat n) (concat actives).
Proof.
  intros HW Hh Ht Hc. destruct (hw_query _ _ _ _ _ HW h t n cur Hh Ht Hc) as (hs & ix & E1 & E2 & V).
  destruct Ht as (g & t0 & g' & ops & N0 & R & HF).
  destruct (lsh_reachable _ _ _ _ _ _ _ _ (hw_rp _ _ _ _ _ HW) N0 R) as (LI & _).
  destruct (lsh_RetrieveRaw_spec _ _ _ _ _ LI V) as (rs & E3 & L3 & HR).
  exists rs. split. { unfold retrieve. rewrite E1. cbn [mbind res_bind]. rewrite E2. cbn [mbind res_bind]. done. }
  rewrite Forall_forall. intros x Hx. apply elem_of_list_In, in_concat in Hx as (ys & Hys & Hx). apply elem_of_list_In in Hx, Hys.
  apply elem_of_list_lookup in Hys as [i Hi]. pose proof (lookup_lt_Some _ _ _ Hi) as Hl.
  destruct (V (Z.of_nat i)) as (y & Hy & _); [lia|].
  destruct (HR (Z.of_nat i) y) as (b & Hb & FI); [lia|done|]. rewrite Nat2Z.id, Hi in Hb. injection Hb as ->.
  apply elem_of_list_lookup in Hx as [q Hq]. apply (fifo_contents_lookup _ _ _ _ FI) in Hq as (q' & Hq' & _).
  rewrite bops_adds in Hq'. apply elem_of_list_lookup_2 in Hq'. by eapply routed_range.
Qed.

(** The sampling loop of mode 2 ends, wherever in the stream it starts. *)
Definition spins (E : env) (str : nat -> Z) (size : nat) (sp : float64) : Prop := forall label g, rstream g = str ->
  select_mode2 (e_fuel E) (Z.of_nat size) sp label g <> Panic PFuel.
(** The selection succeeds and gives distinct nodes of the layer. *)
Definition usable (bad fair : Prop) (str : nat -> Z) (E : env) (size prev : nat) (ty : NodeType) (k l rp : Z) (sp : float64) : Prop :=
  feqb sp fone = true \/
  match e_Mode E with
  | LayerMode1 => hash_works E k l rp (Z.of_nat prev)
  | LayerMode4 => hash_works E k l rp (Z.of_nat prev) /\ (0 < size)%nat
  | LayerMode2 => ty = ReLU \/ (bad /\ (fair -> spins E str size sp) /\ (0 < size)%nat /\ Z.of_nat size <= mapLen /\ 0 <= int_floor (fmul (f_of_Z (Z.of_nat size)) sp))
  | LayerMode3 => ty = ReLU
  | LayerModeOther => True
  end.
(** In mode 2 the labels must fit in the active list. *)
Definition room (E : env) (ty : NodeType) (size : nat) (sp : float64) (label : list Z) : Prop :=
  is_softmax ty = true -> e_Mode E = LayerMode2 -> feqb sp fone = false -> Z.of_nat (length label) <= int_floor (fmul (f_of_Z (Z.of_nat size)) sp).
Definition labels_in (ty : NodeType) (size : nat) (label : list Z) : Prop :=
  is_softmax ty = true -> NoDup label /\ Forall (fun x => 0 <= x < Z.of_nat size) label.

Lemma pair0_range n xs : Forall (fun x => 0 <= x < Z.of_nat n) xs -> Forall (in_range n) (map pair0 xs).
Proof. intros H. apply Forall_fmap. eapply Forall_impl; [exact H|]. done. Qed.
Lemma pair0_index xs : map iv_index (map pair0 xs) = xs.
Proof. rewrite map_map. apply map_id. Qed.
Lemma NoDup_seqZ a n : NoDup (seqZ a n).
Proof. apply NoDup_fmap_2_strong; [|apply NoDup_seq]. intros; lia. Qed.
Lemma Forall_seqZ n : Forall (fun x => 0 <= x < Z.of_nat n) (seqZ 0 (Z.of_nat n)).
Proof. rewrite Forall_forall. intros x Hx%elem_of_seqZ. lia. Qed.

Lemma mode2_fill_total N fuel : forall n active bs tmp g, 0 < N <= Z.of_nat (length bs) -> n = Z.of_nat (length active) -> 0 <= tmp ->
  mode2_fill fuel N n active bs tmp g <> Panic PFuel -> exists r, mode2_fill fuel N n active bs tmp g = Ok r.
Proof.
  induction fuel as [|fuel IH]; intros n active bs tmp g HN Hn Ht Hf; cbn [mode2_fill] in *;
    (destruct (Z.ltb_spec tmp n) as [Hlt|_]; [|by eexists]); [done|].
  unfold rand_intn in *. destruct (Z.leb_spec N 0) as [?|_]; [lia|]. cbn [mbind res_bind] in *. destruct (draw_below N g) as [v g1] eqn:Eg.
  apply draw_below_range in Eg; [|lia]. destruct (sget_in bs v) as (b & Hb & _); [lia|]. rewrite Hb in *. cbn [mbind res_bind] in *.
  destruct b; cbn [negb] in *; [by apply IH|].
  rewrite sset_in in Hf |- * by lia. cbn [mbind res_bind] in *. rewrite sset_in in Hf |- * by lia. cbn [mbind res_bind] in *.
  apply IH; [by rewrite insert_length|by rewrite insert_length|lia|done].
Qed.
Lemma select_mode2_total fuel N sp label g : 0 < N <= mapLen -> Forall (fun x => 0 <= x < N) label ->
  Z.of_nat (length label) <= int_floor (fmul (f_of_Z N) sp) ->
  select_mode2 fuel N sp label g <> Panic PFuel -> exists a g', select_mode2 fuel N sp label g = Ok (a, g').
Proof.
  unfold select_mode2. generalize mapLen. intros ML HN HF Hr. set (n := int_floor _) in *. unfold make_slice.
  destruct (Z.ltb_spec n 0) as [?|_]; [lia|]. destruct (Z.ltb_spec ML 0) as [?|_]; [lia|]. cbn [mbind res_bind].
  match goal with |- context [foldM ?f ?s0 ?xs] => destruct (foldM_total' (fun st : list Pair * list bool => length st.1 = Z.to_nat n /\ length st.2 = Z.to_nat ML) f xs s0)
    as ([act bs] & Ef & [Ha Hb]) end.
  - cbn [fst snd]. by rewrite !replicate_length.
  - intros [i x] [act bs] [Ha Hb] Hx. cbn [fst snd] in Ha, Hb. apply elem_of_list_lookup in Hx as [q Hq]. apply indexed_lookup in Hq as [-> Hq].
    pose proof (lookup_lt_Some _ _ _ Hq). apply elem_of_list_lookup_2 in Hq. rewrite Forall_forall in HF. specialize (HF _ Hq).
    rewrite sset_in by lia. cbn [mbind res_bind]. rewrite sset_in by lia. cbn [mbind res_bind]. eexists. split; [reflexivity|]. cbn [fst snd]. by rewrite !insert_length.
  - rewrite Ef. cbn [mbind res_bind]. intros H. cbn [fst snd] in Ha, Hb.
    destruct (mode2_fill_total N fuel n act bs (Z.of_nat (length label)) g) as ([a g'] & ->); [lia|lia|lia|done|]. eauto.
Qed.

Lemma select_total (bad fair : Prop) (str : nat -> Z) E lv batch size prev ty k l rp cur label sp g :
  rstream g = str -> layer_shape E batch size prev ty k l rp lv -> usable bad fair str E size prev ty k l rp sp -> (length cur <= prev)%nat -> labels_in ty size label ->
  room E ty size sp label -> (bad -> fair \/ ref_select E lv cur label sp g <> Panic PFuel) ->
  exists sel in_ g', ref_select E lv cur label sp g = Ok (sel, in_, g') /\
    match sel with Some act => NoDup (map iv_index act) /\ Forall (in_range size) act | None => True end.
Proof.
  intros HG S U Hc HL HM. unfold ref_select. rewrite (ss_size _ _ _ _ _ _ _ _ _ S), (ss_type _ _ _ _ _ _ _ _ _ S), (ss_l _ _ _ _ _ _ _ _ _ S).
  destruct (feqb sp fone) eqn:Ef.
  { intros _. do 3 eexists. split; [reflexivity|]. cbn beta iota. unfold select_all. rewrite pair0_index. split; [apply NoDup_seqZ|apply pair0_range, Forall_seqZ]. }
  destruct U as [U|U]; [by rewrite U in Ef|]. intros NF.
  destruct (e_Mode E) eqn:Em.
  - destruct (retrieve_total E k l rp (Z.of_nat prev) (lv_hash lv) (lv_tables lv) size cur U (ss_hash _ _ _ _ _ _ _ _ _ S) (ss_tables _ _ _ _ _ _ _ _ _ S)) as (acts & -> & HA); [lia|].
    cbn [mbind res_bind]. destruct (select_mode1 _ _ _ _ _) as [vect g'] eqn:E1. do 3 eexists. split; [reflexivity|]. cbn beta iota.
    apply select_mode1_spec in E1 as (act & -> & ND & HT & _). rewrite pair0_index. split; [done|]. apply pair0_range.
    rewrite Forall_forall. intros j Hj. apply HT in Hj. unfold tally in Hj.
    destruct (is_softmax ty && bool_decide (j ∈ label)) eqn:Eb.
    + apply andb_true_iff in Eb as [Es Eb%bool_decide_eq_true]. destruct (HL Es) as [_ HF]. rewrite Forall_forall in HF. by apply HF.
    + rewrite Forall_forall in HA. apply HA. apply occ_pos. lia.
  - destruct (is_softmax ty) eqn:Es; [|by do 3 eexists]. destruct U as [->|(B & HSp & Hs & Hml & _)]; [done|].
    destruct (HL Es) as [ND HF]. specialize (HM Es Em Ef). specialize (NF B).
    destruct (select_mode2_total (e_fuel E) (Z.of_nat size) sp label g) as (a & g' & Ea); [lia|done|done|destruct NF as [F|N]; [by apply (HSp F)|intros Hp; apply N; by rewrite Hp]|].
    rewrite Ea. cbn [mbind res_bind]. do 3 eexists. split; [reflexivity|]. cbn beta iota.
    destruct (select_mode2_spec _ _ _ _ _ _ _ Ea) as (rest & -> & _ & N2 & X2 & R2 & _). rewrite pair0_index. split.
    + apply NoDup_app. split; [done|]. split; [|done]. rewrite Forall_forall in X2. intros x H1 H2. by apply (X2 x).
    + apply pair0_range, Forall_app. split; [done|]. eapply Forall_impl; [exact R2|]. intros x [? ?]. done.
  - subst ty. cbn [is_softmax]. by do 3 eexists.
  - destruct U as [U Hs].
    destruct (retrieve_total E k l rp (Z.of_nat prev) (lv_hash lv) (lv_tables lv) size cur U (ss_hash _ _ _ _ _ _ _ _ _ S) (ss_tables _ _ _ _ _ _ _ _ _ S)) as (acts & -> & HA); [lia|].
    cbn [mbind res_bind].
    destruct (select_mode4_total (Z.of_nat size) (is_softmax ty) l (lv_rand lv) label acts g) as (X & g' & -> & HX & _ & _ & _ & _);
      [lia|apply U|by apply S| |].
    { unfold candidates. apply Forall_app. split; [|done]. destruct (is_softmax ty) eqn:Es; [|done]. by apply HL. }
    cbn [mbind res_bind]. do 3 eexists. split; [reflexivity|]. cbn beta iota. rewrite pair0_index.
    match goal with |- context [replicate (Z.to_nat ?d) 0] => assert (Hd : d = 0) end.
    { destruct (is_softmax ty) eqn:Es; [|done]. destruct (HL Es) as [ND _]. rewrite (size_list_to_set _ ND). lia. }
    rewrite Hd. cbn [Z.to_nat replicate]. rewrite app_nil_r. unfold chosen. split.
    + apply NoDup_filter, NoDup_seqZ.
    + apply pair0_range. rewrite Forall_forall. intros x [_ Hx]%elem_of_list_filter. apply elem_of_seqZ in Hx. lia.
  - by do 3 eexists.
Qed.

Lemma range_index n ps qs : map iv_index ps = map iv_index qs -> Forall (in_range n) qs -> Forall (in_range n) ps.
Proof.
  intros H. rewrite !Forall_forall. intros HF p Hp. assert (Hi : iv_index p ∈ map iv_index ps) by (by apply elem_of_list_fmap_1).
  rewrite H in Hi. apply elem_of_list_fmap in Hi as (q & Hq & Hin). unfold in_range. rewrite Hq. by apply HF.
Qed.
Lemma shape_nodes E batch size prev ty k l rp lv : layer_shape E batch size prev ty k l rp lv ->
  Forall (node_fit (e_UseAdam E) ty batch prev) (lv_nodes lv).
Proof. intros S. rewrite Forall_lookup. intros i v Hv. eapply shape_fit. by eapply ss_nodes. Qed.

Lemma query_total_sel (bad fair : Prop) (str : nat -> Z) E lv batch size prev ty k l rp anpl cur (li : nat) i label sp g :
  rstream g = str -> layer_shape E batch size prev ty k l rp lv -> usable bad fair str E size prev ty k l rp sp -> ty <> TypeOther -> labels_in ty size label -> room E ty size sp label ->
  (bad -> fair \/ ref_select E lv cur label sp g <> Panic PFuel) ->
  anpl !! li = Some cur -> anpl !! S li = Some [] -> Forall (in_range prev) cur -> (length cur <= prev)%nat -> 0 <= i < Z.of_nat batch ->
  exists in_ out lv' g', ref_query E lv anpl (Z.of_nat li) i label sp g = Ok (in_, <[S li := out]> anpl, lv', g') /\
    NoDup (map iv_index out) /\ Forall (in_range size) out /\ layer_shape E batch size prev ty k l rp lv'.
Proof.
  intros HG S U Ht HL HM NF Hcur Hnext Hr Hlen Hi.
  assert (G : exists in_ out lv' g', ref_query E lv anpl (Z.of_nat li) i label sp g = Ok (in_, <[Datatypes.S li := out]> anpl, lv', g') /\
    NoDup (map iv_index out) /\ Forall (in_range size) out).
  { unfold ref_query in *. pose proof (lookup_lt_Some _ _ _ Hnext) as Hb.
    assert (Hget : sget anpl (Z.of_nat li) = Ok cur) by (apply sget_Ok; split; [lia|by rewrite Nat2Z.id]). rewrite Hget in *. cbn [mbind res_bind] in *.
    destruct (select_total bad fair str E lv batch size prev ty k l rp cur label sp g) as (sel & in_ & g' & -> & HS); try done.
    clear NF. cbn [mbind res_bind].
    set (ids := match sel with Some a => a | None => [] end).
    assert (HI : NoDup (map iv_index ids) /\ Forall (in_range size) ids).
    { unfold ids. destruct sel; [done|]. split; [apply NoDup_nil_2|done]. }
    assert (E1 : exists anpl1, (match sel with Some a => sset anpl (Z.of_nat li + 1) a | None => Ok anpl end) = Ok anpl1 /\ anpl1 = <[Datatypes.S li := ids]> anpl).
    { destruct sel; unfold ids; [rewrite sset_in by lia|]; eexists; (split; [reflexivity|]).
      - f_equal. lia.
      - symmetry. by apply list_insert_id. }
    destruct E1 as (anpl1 & -> & ->). cbn [mbind res_bind].
    replace (sget (<[Datatypes.S li:=ids]> anpl) (Z.of_nat li + 1)) with (Ok ids).
    2: { symmetry. apply sget_Ok. split; [lia|]. replace (Z.to_nat (Z.of_nat li + 1)) with (Datatypes.S li) by lia. by rewrite list_lookup_insert by lia. }
    cbn [mbind res_bind]. rewrite (ss_type _ _ _ _ _ _ _ _ _ S).
    pose proof (ss_norm _ _ _ _ _ _ _ _ _ S) as HN.
    assert (E2 : exists norm, (if is_softmax ty then sset (lv_norm lv) i fzero else Ok (lv_norm lv)) = Ok norm /\ length norm = length (lv_norm lv)).
    { clear -HN Hi. destruct (is_softmax ty) in *; [rewrite sset_in by lia|]; eexists; (split; [reflexivity|]); [by rewrite insert_length|done]. }
    destruct E2 as (norm & -> & Hnorm). cbn [mbind res_bind].
    destruct (act_total (e_UseAdam E) ty batch prev (is_softmax ty) cur i ids Ht Hi Hr (lv_nodes lv) fzero) as (vs & out & mx & -> & HF & HV & HO);
      [by eapply shape_nodes|rewrite (ss_size _ _ _ _ _ _ _ _ _ S); apply HI|]. cbn [mbind res_bind].
    assert (Ho : Forall (in_range size) out) by (eapply range_index; [exact HO|apply HI]).
    assert (E3 : exists vs' norm' out', (if is_softmax ty then foldM (ref_soft_step E i mx) (vs, norm, []) out else Ok (vs, norm, out)) = Ok (vs', norm', out') /\
      map iv_index out' = map iv_index ids).
    { destruct (is_softmax ty) eqn:Es.
      - destruct (soft_total E (e_UseAdam E) ty batch prev i mx out Hi vs norm) as (vs' & norm' & out' & -> & Ho'); try done.
        + by rewrite HV, (ss_size _ _ _ _ _ _ _ _ _ S).
        + by rewrite Hnorm, HN.
        + eexists _, _, _. split; [reflexivity|]. congruence.
      - eexists _, _, _. split; [reflexivity|done]. }
    destruct E3 as (vs' & norm' & out' & -> & HO'). cbn [mbind res_bind].
    rewrite sset_in by (rewrite insert_length; lia). cbn [mbind res_bind].
    replace (Z.to_nat (Z.of_nat li + 1)) with (Datatypes.S li) by lia. rewrite list_insert_insert.
    do 4 eexists. split; [reflexivity|]. rewrite HO'. split; [apply HI|]. eapply range_index; [exact HO'|apply HI]. }
  destruct G as (in_ & out & lv' & g' & Eq & ND & HR). exists in_, out, lv', g'. split_and!; try done.
  pose proof (query_calm _ _ _ _ _ _ _ _ _ _ _ _ Eq (shape_calm _ _ _ _ _ _ _ _ _ S)) as HC.
  apply query_same in Eq as [[L1 L2 L3 L4 L5 L6 L7 L8 _ L9] _]. eapply shape_move; try done.
  - by rewrite L2.
  - rewrite L6. apply S.
  - rewrite L7. apply S.
  - eapply Forall2_impl; [exact L9|]. intros. by eapply same_node_kept.
Qed.
Lemma query_total (bad fair : Prop) (str : nat -> Z) E lv batch size prev ty k l rp anpl cur (li : nat) i label sp g :
  rstream g = str -> layer_shape E batch size prev ty k l rp lv -> usable bad fair str E size prev ty k l rp sp -> ty <> TypeOther -> labels_in ty size label -> room E ty size sp label ->
  (bad -> fair \/ ref_query E lv anpl (Z.of_nat li) i label sp g <> Panic PFuel) ->
  anpl !! li = Some cur -> anpl !! S li = Some [] -> Forall (in_range prev) cur -> (length cur <= prev)%nat -> 0 <= i < Z.of_nat batch ->
  exists in_ out lv' g', ref_query E lv anpl (Z.of_nat li) i label sp g = Ok (in_, <[S li := out]> anpl, lv', g') /\
    NoDup (map iv_index out) /\ Forall (in_range size) out /\ layer_shape E batch size prev ty k l rp lv'.
Proof.
  intros HG S U Ht HL HM NF Hcur. apply (query_total_sel bad fair str); try done. intros B. destruct (NF B) as [F|N]; [by left|right].
  intros Hpf. apply N. unfold ref_query. assert (Hget : sget anpl (Z.of_nat li) = Ok cur) by (apply sget_Ok; split; [lia|by rewrite Nat2Z.id]).
  rewrite Hget. cbn [mbind res_bind]. by rewrite Hpf.
Qed.

(** The number of inputs of layer [j], and a configuration that is ready for a pass. *)
Definition dim (D : nat) (cfg : list (nat * nat * NodeType * Z * Z * Z)) (j : nat) : nat :=
  match j with O => D | S j => match cfg !! j with Some (size, _, _, _, _, _) => size | None => O end end.
Definition ready (bad fair : Prop) (str : nat -> Z) (E : env) (D : nat) (cfg : list (nat * nat * NodeType * Z * Z * Z)) (sps : list float64) (off : nat) : Prop :=
  forall j size prev ty k l rp, cfg !! j = Some (size, prev, ty, k, l, rp) ->
    prev = dim D cfg j /\ ty <> TypeOther /\ exists sp, sps !! (off + j)%nat = Some sp /\ usable bad fair str E size prev ty k l rp sp.
Definition labels_ready (E : env) (cfg : list (nat * nat * NodeType * Z * Z * Z)) (sps : list float64) (off : nat) (label : list Z) : Prop :=
  forall j size prev ty k l rp, cfg !! j = Some (size, prev, ty, k, l, rp) -> labels_in ty size label /\
    forall sp, sps !! (off + j)%nat = Some sp -> room E ty size sp label.
Lemma usable_room (bad fair : Prop) (str : nat -> Z) E size prev ty k l rp sp label : usable bad fair str E size prev ty k l rp sp ->
  (bad -> label = [] \/ room E ty size sp label) -> room E ty size sp label.
Proof.
  intros [U|U] HB Hs Hm Hd; [by rewrite U in Hd|]. rewrite Hm in U. destruct U as [->|(B & _ & _ & _ & H0)]; [done|].
  destruct (HB B) as [->|R]; [done|]. by apply R.
Qed.
(** The active nodes of every layer are distinct nodes of it. *)
Definition lists_ok (D : nat) (cfg : list (nat * nat * NodeType * Z * Z * Z)) (n : nat) (anpl : list (list Pair)) : Prop :=
  forall j, (j <= n)%nat -> exists out, anpl !! j = Some out /\ Forall (in_range (dim D cfg j)) out /\ (length out <= dim D cfg j)%nat /\
    ((0 < j)%nat -> NoDup (map iv_index out)).

Lemma distinct_length n (ps : list Pair) : NoDup (map iv_index ps) -> Forall (in_range n) ps -> (length ps <= n)%nat.
Proof.
  intros ND HF. rewrite <- (map_length iv_index). transitivity (length (seqZ 0 (Z.of_nat n))); [|rewrite seqZ_length; lia].
  apply submseteq_length, NoDup_submseteq; [done|]. intros x (p & -> & Hp)%elem_of_list_fmap. rewrite Forall_forall in HF.
  apply elem_of_seqZ. specialize (HF _ Hp). unfold in_range in HF. lia.
Qed.

Lemma forward_total (bad fair : Prop) (str : nat -> Z) E batch D cfg sps off nv i feats label :
  rstream (nv_rng nv) = str -> all_shape E batch cfg (nv_layers nv) -> ready bad fair str E D cfg sps off -> labels_ready E cfg sps off label ->
  Forall (in_range D) feats -> (length feats <= D)%nat -> 0 <= i < Z.of_nat batch ->
  (bad -> fair \/ ref_forward E (Z.of_nat (length cfg)) sps nv i feats label (Z.of_nat off) <> Panic PFuel) ->
  exists anpl ins nv', ref_forward E (Z.of_nat (length cfg)) sps nv i feats label (Z.of_nat off) = Ok (anpl, ins, nv') /\
    all_shape E batch cfg (nv_layers nv') /\ length anpl = S (length cfg) /\ lists_ok D cfg (length cfg) anpl.
Proof.
  intros HG HS HR HL Hf Hfl Hi. unfold ref_forward. intros NF. pose proof (Forall2_length _ _ _ HS) as Hlen.
  unfold make_slice in *. destruct (Z.ltb_spec (Z.of_nat (length cfg) + 1) 0) as [?|_]; [lia|]. cbn [mbind res_bind] in *.
  replace (Z.to_nat (Z.of_nat (length cfg) + 1)) with (S (length cfg)) in * by lia.
  rewrite sset_in in NF |- * by (rewrite replicate_length; lia). cbn [mbind res_bind] in *. change (Z.to_nat 0) with 0%nat in *.
  set (P := fun (pre : list Z) (st : list (list Pair) * list Z * NetView) =>
    all_shape E batch cfg (nv_layers st.2) /\ length st.1.1 = S (length cfg) /\ lists_ok D cfg (length pre) st.1.1 /\
    (forall j, (length pre < j <= length cfg)%nat -> st.1.1 !! j = Some []) /\ rstream (nv_rng st.2) = str).
  edestruct (foldM_live bad fair P (ref_forward_layer E i label sps (Z.of_nat off))) as ([[anpl ins] nv'] & Ef & (P1 & P2 & P3 & P4 & P5)); cycle 3.
  - exists anpl, ins, nv'. split; [exact Ef|]. cbn in P1, P2, P3. rewrite seqZ_length, Nat2Z.id, <- Hlen in P3. done.
  - unfold P. cbn [fst snd length]. split; [done|]. rewrite insert_length, replicate_length. split; [done|]. split.
    + intros j Hj. assert (j = 0%nat) as -> by lia. exists feats. rewrite list_lookup_insert by (rewrite replicate_length; lia).
      split_and!; try done. lia.
    + split; [|done]. intros j Hj. rewrite list_lookup_insert_ne by lia. apply lookup_replicate. split; [done|lia].
  - exact NF.
  - clear NF. intros pre x [[anpl ins] nv1] (P1 & P2 & P3 & P4 & P5) Hpre%seqZ_at. destruct Hpre as [Hp ->]. set (j := length pre) in *.
    cbn [fst snd] in P1, P2, P3, P4, P5. unfold ref_forward_layer. intros NF.
    destruct (lookup_lt_is_Some_2 cfg j) as [[[[[[size prev] ty] k] l] rp] Hc]; [lia|].
    destruct (Forall2_lookup_l _ _ _ _ _ P1 Hc) as (lv & Hlv & S).
    assert (Hg1 : sget (nv_layers nv1) (Z.of_nat j) = Ok lv) by (apply sget_Ok; split; [lia|by rewrite Nat2Z.id]). rewrite Hg1 in *. cbn [mbind res_bind] in *.
    destruct (HR _ _ _ _ _ _ _ Hc) as (Hprev & Hty & sp & Hsp & U).
    assert (Hg2 : sget sps (Z.of_nat off + Z.of_nat j) = Ok sp).
    { apply sget_Ok. split; [lia|]. by replace (Z.to_nat (Z.of_nat off + Z.of_nat j)) with (off + j)%nat by lia. }
    rewrite Hg2 in *. cbn [mbind res_bind] in *. destruct (HL _ _ _ _ _ _ _ Hc) as [HL1 HL2].
    destruct (P3 j) as (cur & Hcur & Hcr & Hcl & _); [lia|].
    destruct (query_total bad fair str E lv batch size prev ty k l rp anpl cur j i label sp (nv_rng nv1)) as (in_ & out & lv' & g' & EQ & ND & HO & S'); try done.
    { by apply HL2. } { intros B; destruct (NF B) as [F|N]; [by left|right; intros Hpf; apply N; by rewrite Hpf]. } { apply P4. lia. } { by rewrite Hprev. } { by rewrite Hprev. }
    rewrite EQ. pose proof (query_stream _ _ _ _ _ _ _ _ _ _ _ _ EQ) as HG'.
    cbn [mbind res_bind]. eexists. split; [reflexivity|]. unfold P. cbn [fst snd nv_layers]. rewrite app_length. cbn [length]. fold j.
    rewrite insert_length. split_and!; [|done| | |cbn [nv_rng]; congruence].
    + eapply all_shape_map; [exact P1|by rewrite insert_length|]. intros q c lv1 lv2 Hq H1 H2.
      rewrite Nat2Z.id in H2. destruct (decide (q = j)) as [->|Hne].
      * rewrite Hc in Hq. injection Hq as <-. rewrite list_lookup_insert in H2 by (eapply lookup_lt_Some; exact Hlv). injection H2 as <-. done.
      * rewrite list_lookup_insert_ne in H2 by done. rewrite H1 in H2. injection H2 as ->. by destruct c as [[[[[? ?] ?] ?] ?] ?].
    + intros q Hq. destruct (decide (q = Datatypes.S j)) as [->|Hne].
      * exists out. rewrite list_lookup_insert by lia. cbn [dim]. rewrite Hc. split_and!; try done. by apply distinct_length.
      * rewrite list_lookup_insert_ne by done. apply P3. lia.
    + intros q Hq. rewrite list_lookup_insert_ne by lia. apply P4. lia.
Qed.

(** * Back-propagation *)
(** Two states of a node that differ in neither sizes nor flags. *)
Definition flags (v : NodeView) : list float64 := map s_active (v_slots v).
Definition alike (v v' : NodeView) : Prop := node_kept v v' /\ flags v' = flags v.
Lemma alike_refl v : alike v v.
Proof. by split. Qed.
Lemma alike_trans v1 v2 v3 : alike v1 v2 -> alike v2 v3 -> alike v1 v3.
Proof. intros [? H1] [? H2]. split; [by eapply node_kept_trans|congruence]. Qed.
Lemma alike_set_slot v i s s' : v_slots v !! Z.to_nat i = Some s -> s_active s' = s_active s -> alike v (v_set_slot v i s').
Proof.
  intros Hs Ha. split; [constructor; try done; cbn; by rewrite insert_length|]. unfold flags. cbn.
  change (map s_active) with (@fmap list _ _ _ s_active). rewrite list_fmap_insert. apply list_insert_id.
  by rewrite list_lookup_fmap, Hs, Ha.
Qed.
Lemma alike_fit adam ty batch prev v v' : alike v v' -> node_fit adam ty batch prev v -> node_fit adam ty batch prev v'.
Proof.
  intros [[HI ? ? ? ? ?] _] (? & ? & ? & Ht & ?). unfold identity in HI. injection HI as ? ? _. split_and!; try congruence.
  intros Ha. specialize (Ht Ha). congruence.
Qed.
(** The slot of input [i] is in use. *)
Definition lit (i : Z) (v : NodeView) : Prop := exists s, sget (v_slots v) i = Ok s /\ v_slots v !! Z.to_nat i = Some s /\ on s = true.
Lemma alike_lit i v v' : alike v v' -> lit i v -> lit i v'.
Proof.
  intros [_ HF] (s & Hg & Hs & Ho). apply sget_Ok in Hg as [Hi _]. unfold flags in HF.
  assert (Hf : map s_active (v_slots v') !! Z.to_nat i = Some (s_active s)).
  { rewrite HF. change (map s_active) with (@fmap list _ _ _ s_active). by rewrite list_lookup_fmap, Hs. }
  change (map s_active) with (@fmap list _ _ _ s_active) in Hf. rewrite list_lookup_fmap in Hf.
  destruct (v_slots v' !! Z.to_nat i) as [s'|] eqn:Es; [|done]. injection Hf as Hf. exists s'. split; [by apply sget_Ok|]. split; [done|].
  unfold on in *. by rewrite Hf.
Qed.

Lemma incr_total v i d : lit i v -> exists v', ref_incr v i d = Ok v' /\ alike v v'.
Proof.
  intros (s & Hg & Hs & Ho). unfold ref_incr. rewrite Hg. cbn [mbind res_bind]. rewrite Ho. cbn [negb].
  destruct (fleb _ _); eexists; (split; [reflexivity|]); [apply alike_refl|]. by eapply alike_set_slot.
Qed.
Lemma softmax_total v x i lab : lit i v -> exists v', ref_softmax v x i lab = Ok v' /\ alike v v'.
Proof.
  intros (s & Hg & Hs & Ho). unfold ref_softmax. rewrite Hg. cbn [mbind res_bind]. rewrite Ho. cbn [negb].
  eexists. split; [reflexivity|]. by eapply alike_set_slot.
Qed.
Lemma add_at_total xs i d : 0 <= i < Z.of_nat (length xs) -> exists ys, add_at xs i d = Ok ys /\ length ys = length xs.
Proof.
  intros Hi. unfold add_at. destruct (sget_in xs i Hi) as (x & -> & _). cbn [mbind res_bind]. rewrite sset_in by done.
  eexists. split; [reflexivity|]. apply insert_length.
Qed.
Lemma grad_total adam lr ty batch prev v i g : node_fit adam ty batch prev v -> 0 <= i < Z.of_nat prev ->
  exists v', ref_grad adam lr v i g = Ok v' /\ alike v v'.
Proof.
  intros (_ & _ & Hw & Ht & _) Hi. unfold ref_grad. destruct adam.
  - destruct (add_at_total (v_t v) i g) as (t & -> & L); [rewrite Ht by done; lia|]. eexists. split; [reflexivity|]. split; [by constructor|done].
  - destruct (add_at_total (v_w v) i (fmul lr g)) as (w & -> & L); [lia|]. eexists. split; [reflexivity|]. split; [by constructor|done].
Qed.
Lemma finish_fit adam step ty batch prev v i d : node_fit adam ty batch prev v -> node_fit adam ty batch prev (ref_finish adam step v i d).
Proof. intros (?&?&?&?&?). unfold ref_finish. apply fit_set_slot. destruct adam; by split_and!. Qed.

Lemma Forall2_insert_one {A B} (R : A -> B -> Prop) xs ys i x y : Forall2 R xs ys -> xs !! i = Some x -> R x y -> Forall2 R xs (<[i := y]> ys).
Proof. intros H Hx Hr. rewrite <- (list_insert_id xs i x Hx). by apply Forall2_insert. Qed.

Lemma backprop_total adam lr ty batch prev v ps cur i : node_fit adam ty batch prev v -> lit i v ->
  length ps = prev -> (forall p, p ∈ cur -> in_range prev p /\ exists pv, ps !! Z.to_nat (iv_index p) = Some pv /\ lit i pv) ->
  exists v' ps', ref_backprop adam lr v ps cur i = Ok (v', ps') /\ node_fit adam ty batch prev v' /\ Forall2 alike ps ps'.
Proof.
  intros F (s & Hg & Hs & Ho) Hlen Hcur. unfold ref_backprop. rewrite Hg. cbn [mbind res_bind]. rewrite Ho. cbn [negb].
  set (P := fun st : NodeView * list NodeView => alike v st.1 /\ Forall2 alike ps st.2).
  destruct (foldM_total' P (ref_backprop_step adam lr i) cur (v, ps)) as ([v' ps'] & -> & [A1 A2]).
  - split; [apply alike_refl|]. cbn. apply Forall2_same_length_lookup. split; [done|]. intros k x y H1 H2. rewrite H1 in H2. injection H2 as ->. apply alike_refl.
  - intros p [v1 ps1] [A1 A2] Hp. cbn in A1, A2. destruct (Hcur _ Hp) as (Hr & pv & Hpv & Lp). unfold ref_backprop_step.
    destruct (Forall2_lookup_l _ _ _ _ _ A2 Hpv) as (pv1 & Hpv1 & Ap).
    replace (sget ps1 (iv_index p)) with (Ok pv1) by (symmetry; apply sget_Ok; split; [apply Hr|done]). cbn [mbind res_bind].
    destruct (alike_lit i v v1 A1) as (s1 & -> & Hs1 & _); [by exists s|]. cbn [mbind res_bind].
    pose proof (alike_fit _ _ _ _ _ _ A1 F) as F1. pose proof F1 as (_ & _ & Hw1 & _).
    destruct (sget_in (v_w v1) (iv_index p)) as (x & -> & _); [rewrite Hw1; apply Hr|]. cbn [mbind res_bind].
    destruct (incr_total pv1 i (fmul (s_delta s1) x)) as (pv2 & -> & Ap2); [by eapply alike_lit|]. cbn [mbind res_bind].
    destruct (alike_lit i pv1 pv2 Ap2) as (s2 & -> & _); [by eapply alike_lit|]. cbn [mbind res_bind].
    destruct (grad_total adam lr ty batch prev v1 (iv_index p) (fmul (s_delta s1) (slot_act s2)) F1 Hr) as (v2 & -> & A3). cbn [mbind res_bind].
    eexists. split; [reflexivity|]. unfold P. cbn [fst snd]. split; [by eapply alike_trans|]. eapply Forall2_insert_one; [done..|]. by eapply alike_trans.
  - cbn [mbind res_bind]. cbn in A1, A2. do 2 eexists. split; [reflexivity|]. split; [|done]. apply finish_fit. by eapply alike_fit.
Qed.
Lemma backprop_first_total adam lr ty batch prev v cur i : node_fit adam ty batch prev v -> lit i v -> Forall (in_range prev) cur ->
  exists v', ref_backprop_first adam lr v cur i = Ok v' /\ node_fit adam ty batch prev v'.
Proof.
  intros F (s & Hg & Hs & Ho) Hcur. unfold ref_backprop_first. rewrite Hg. cbn [mbind res_bind]. rewrite Ho. cbn [negb].
  match goal with |- context [foldM ?f v cur] => destruct (foldM_total' (alike v) f cur v) as (v' & -> & A1) end.
  - apply alike_refl.
  - intros p v1 A1 Hp. rewrite Forall_forall in Hcur. destruct (grad_total adam lr ty batch prev v1 (iv_index p) (fmul (s_delta s) (iv_value p))) as (v2 & -> & A2);
      [by eapply alike_fit|by apply Hcur|]. eexists. split; [reflexivity|]. by eapply alike_trans.
  - cbn [mbind res_bind]. eexists. split; [reflexivity|]. apply finish_fit. by eapply alike_fit.
Qed.

Definition layer_fit (E : env) (batch : nat) (c : nat * nat * NodeType * Z * Z * Z) (lv : LayerView) : Prop :=
  let '(size, prev, ty, _, _, _) := c in
  lv_type lv = ty /\ length (lv_nodes lv) = size /\ Forall (node_fit (e_UseAdam E) ty batch prev) (lv_nodes lv) /\
  (is_softmax ty = true -> length (lv_norm lv) = batch).
Definition all_fit (E : env) (batch : nat) (cfg : list (nat * nat * NodeType * Z * Z * Z)) (nv : NetView) : Prop :=
  Forall2 (layer_fit E batch) cfg (nv_layers nv).
Lemma all_shape_fit E batch cfg nv : all_shape E batch cfg (nv_layers nv) -> all_fit E batch cfg nv.
Proof.
  intros H. eapply Forall2_impl; [exact H|]. intros [[[[[size prev] ty] k] l] rp] lv S. unfold layer_fit. split_and!; [apply S|apply S|by eapply shape_nodes|].
  intros Hs. rewrite (ss_norm _ _ _ _ _ _ _ _ _ S), Hs. done.
Qed.
(** Node [id] of layer [j] is in use for input [i]. *)
Definition lit_at (i : Z) (nv : NetView) (j : nat) (id : Z) : Prop :=
  exists lv v, nv_layers nv !! j = Some lv /\ lv_nodes lv !! Z.to_nat id = Some v /\ lit i v.

Lemma fit_set_nodes E batch size prev ty k l rp lv vs : layer_fit E batch (size, prev, ty, k, l, rp) lv -> length vs = length (lv_nodes lv) ->
  Forall (node_fit (e_UseAdam E) ty batch prev) vs -> layer_fit E batch (size, prev, ty, k, l, rp) (lv_set_nodes lv vs).
Proof. intros (?&?&?&?) HL HF. cbn. split_and!; try done. congruence. Qed.

Lemma lit_set_ne i nv j lv' j' id : j' <> j -> lit_at i nv j' id -> lit_at i (nv_set nv j lv') j' id.
Proof. intros Hne (lv & v & H1 & H2 & H3). exists lv, v. split; [|done]. cbn. by rewrite list_lookup_insert_ne. Qed.
Lemma lit_set_eq i nv j lv vs id v : is_Some (nv_layers nv !! j) -> vs !! Z.to_nat id = Some v -> lit i v -> lit_at i (nv_set nv j (lv_set_nodes lv vs)) j id.
Proof. intros [x Hx] H2 H3. exists (lv_set_nodes lv vs), v. split; [|done]. cbn. apply list_lookup_insert. by eapply lookup_lt_Some. Qed.

Lemma back_node_total E batch D cfg lr i ex j cur nv p :
  all_fit E batch cfg nv -> (forall j size prev ty k l rp, cfg !! j = Some (size, prev, ty, k, l, rp) -> prev = dim D cfg j) ->
  (forall size prev ty k l rp, last cfg = Some (size, prev, ty, k, l, rp) -> ty = Softmax) ->
  (j < length cfg)%nat -> 0 <= i < Z.of_nat batch -> 0 <= iv_index p -> lit_at i nv j (iv_index p) ->
  (j = 0%nat -> Forall (in_range D) (features ex)) ->
  (forall j0, j = S j0 -> Forall (in_range (dim D cfg j)) cur /\ forall q, q ∈ cur -> lit_at i nv j0 (iv_index q)) ->
  exists nv', ref_backward_node E (Z.of_nat (length cfg)) i ex lr (Z.of_nat j) cur nv p = Ok nv' /\ all_fit E batch cfg nv' /\
    forall j' id, 0 <= id -> (j', id) <> (j, iv_index p) -> lit_at i nv j' id -> lit_at i nv' j' id.
Proof.
  intros HF HD Hlast Hj Hi Hp0 (lv & v & Hlv & Hv & Lv) H0 HS.
  destruct (lookup_lt_is_Some_2 cfg j Hj) as [[[[[[size prev] ty] k] l] rp] Hc].
  destruct (Forall2_lookup_lr _ _ _ _ _ _ HF Hc Hlv) as (Hty & Hsz & HN & Hnorm).
  pose proof (Forall_lookup_1 _ _ _ _ HN Hv) as Fv. pose proof (lookup_lt_Some _ _ _ Hv) as Hvl.
  unfold ref_backward_node.
  replace (sget (nv_layers nv) (Z.of_nat j)) with (Ok lv) by (symmetry; apply sget_Ok; split; [lia|by rewrite Nat2Z.id]). cbn [mbind res_bind].
  replace (sget (lv_nodes lv) (iv_index p)) with (Ok v) by (symmetry; by apply sget_Ok). cbn [mbind res_bind].
  assert (E1 : exists v1, (if Z.of_nat j =? Z.of_nat (length cfg) - 1 then
         if negb (is_softmax (lv_type lv)) then Panic (PMsg 5)
         else x ← sget (lv_norm lv) i; ref_softmax v x i (labels ex)
       else Ok v) = Ok v1 /\ alike v v1).
  { destruct (Z.eqb_spec (Z.of_nat j) (Z.of_nat (length cfg) - 1)) as [Ej|_]; [|by exists v; split; [|apply alike_refl]].
    assert (Hl : last cfg = Some (size, prev, ty, k, l, rp)).
    { rewrite last_lookup. rewrite <- Hc. f_equal. lia. }
    apply Hlast in Hl. rewrite Hty, Hl. cbn [is_softmax negb].
    destruct (sget_in (lv_norm lv) i) as (x & -> & _); [rewrite Hnorm by (by rewrite Hl); lia|]. cbn [mbind res_bind]. by apply softmax_total. }
  destruct E1 as (v1 & -> & A1). cbn [mbind res_bind].
  pose proof (alike_fit _ _ _ _ _ _ A1 Fv) as F1. pose proof (alike_lit _ _ _ A1 Lv) as L1.
  destruct j as [|j0].
  - cbn [Z.of_nat Z.eqb negb].
    destruct (backprop_first_total (e_UseAdam E) lr ty batch prev v1 (features ex) i F1 L1) as (v2 & -> & F2).
    { rewrite (HD _ _ _ _ _ _ _ Hc). cbn. by apply H0. }
    cbn [mbind res_bind]. eexists. split; [reflexivity|]. change (Z.to_nat 0) with 0%nat. split.
    + unfold all_fit. cbn. eapply Forall2_insert_one; [exact HF|exact Hc|]. apply fit_set_nodes; [by split_and!|by rewrite insert_length|by apply Forall_insert].
    + intros j' id Hid Hne (lv' & v' & H1 & H2 & H3). destruct (decide (j' = 0%nat)) as [->|Hj'].
      * rewrite Hlv in H1. injection H1 as <-. eapply lit_set_eq; [by exists lv| |exact H3].
        rewrite list_lookup_insert_ne; [done|]. intros Hq. apply Hne. f_equal. lia.
      * apply lit_set_ne; [done|]. by exists lv', v'.
  - destruct (Z.eqb_spec (Z.of_nat (S j0)) 0) as [?|_]; [lia|]. cbn [negb].
    replace (Z.of_nat (S j0) - 1) with (Z.of_nat j0) by lia.
    destruct (lookup_lt_is_Some_2 cfg j0) as [[[[[[size0 prev0] ty0] k0] l0] rp0] Hc0]; [lia|].
    destruct (Forall2_lookup_l _ _ _ _ _ HF Hc0) as (pv & Hpv & (Hty0 & Hsz0 & HN0 & Hnorm0)).
    replace (sget (nv_layers nv) (Z.of_nat j0)) with (Ok pv) by (symmetry; apply sget_Ok; split; [lia|by rewrite Nat2Z.id]). cbn [mbind res_bind].
    destruct (HS j0 eq_refl) as [Hr Hlit]. pose proof (HD _ _ _ _ _ _ _ Hc) as Hprev.
    assert (Hps : prev = size0) by (rewrite Hprev; cbn [dim]; by rewrite Hc0).
    destruct (backprop_total (e_UseAdam E) lr ty batch prev v1 (lv_nodes pv) cur i F1 L1) as (v2 & ps & -> & F2 & AP).
    { congruence. }
    { intros q Hq. rewrite Hprev. rewrite Forall_forall in Hr. split; [by apply Hr|].
      destruct (Hlit _ Hq) as (pv' & w & H1 & H2 & H3). rewrite Hpv in H1. injection H1 as <-. by exists w. }
    cbn [mbind res_bind]. eexists. split; [reflexivity|]. rewrite !Nat2Z.id. split.
    + unfold all_fit. cbn. eapply Forall2_insert_one; [eapply Forall2_insert_one; [exact HF|exact Hc|]|exact Hc0|].
      * apply fit_set_nodes; [by split_and!|by rewrite insert_length|by apply Forall_insert].
      * apply fit_set_nodes; [by split_and!|symmetry; by eapply Forall2_length|].
        rewrite Forall_lookup. intros q w Hw. destruct (Forall2_lookup_r _ _ _ _ _ AP Hw) as (w0 & Hw0 & Aw).
        eapply alike_fit; [exact Aw|]. by eapply (Forall_lookup_1 _ _ _ _ HN0).
    + intros j' id Hid Hne (lv' & v' & H1 & H2 & H3). destruct (decide (j' = j0)) as [->|Hj'].
      * rewrite Hpv in H1. injection H1 as <-. destruct (Forall2_lookup_l _ _ _ _ _ AP H2) as (w & Hw & Aw).
        eapply lit_set_eq; [|exact Hw|by eapply alike_lit]. cbn. rewrite list_lookup_insert_ne by lia. by exists pv.
      * apply lit_set_ne; [done|]. destruct (decide (j' = S j0)) as [->|Hj2].
        -- rewrite Hlv in H1. injection H1 as <-. eapply lit_set_eq; [by exists lv| |exact H3].
           rewrite list_lookup_insert_ne; [done|]. intros Hq. apply Hne. f_equal. lia.
        -- apply lit_set_ne; [done|]. by exists lv', v'.
Qed.

Lemma prefix_rest {A} (pre : list A) x xs : pre ++ [x] `prefix_of` xs -> drop (length pre) xs = x :: drop (S (length pre)) xs.
Proof.
  intros [q ->]. rewrite <- (assoc_L (++)), drop_app. cbn [app]. rewrite (drop_app_ge _ _ (S _)) by lia.
  by replace (S (length pre) - length pre)%nat with 1%nat by lia.
Qed.
Lemma train_one_total (bad fair : Prop) (str : nat -> Z) E batch D cfg sps lr nv i ex :
  rstream (nv_rng nv) = str -> all_shape E batch cfg (nv_layers nv) -> ready bad fair str E D cfg sps 0 -> labels_ready E cfg sps 0 (labels ex) ->
  (forall size prev ty k l rp, last cfg = Some (size, prev, ty, k, l, rp) -> ty = Softmax) ->
  Forall (in_range D) (features ex) -> (length (features ex) <= D)%nat -> 0 <= i < Z.of_nat batch ->
  (bad -> fair \/ ref_train_one E (Z.of_nat (length cfg)) sps lr nv (i, ex) <> Panic PFuel) ->
  exists ins nv', ref_train_one E (Z.of_nat (length cfg)) sps lr nv (i, ex) = Ok (ins, nv') /\ all_shape E batch cfg (nv_layers nv').
Proof.
  intros HG HS HR HL Hlast Hf Hfl Hi NF. pose proof (Forall2_length _ _ _ HS) as Hlen.
  assert (G : exists ins nv', ref_train_one E (Z.of_nat (length cfg)) sps lr nv (i, ex) = Ok (ins, nv')).
  2: { destruct G as (ins & nv' & G). exists ins, nv'. split; [done|]. eapply train_one_shape; [exact (f_equal Z.of_nat Hlen)|exact HS|exact G]. }
  unfold ref_train_one in *. destruct (forward_total bad fair str E batch D cfg sps 0 nv i (features ex) (labels ex)) as (anpl & ins & nv1 & EF & S1 & HA & HO); try done.
  { intros B; destruct (NF B) as [F|N]; [by left|right; intros Hp; apply N]. change (Z.of_nat 0) with 0 in Hp. by rewrite Hp. }
  clear NF. change (Z.of_nat 0) with 0 in EF. rewrite EF. cbn [mbind res_bind].
  assert (Hlit : forall j out p, (j < length cfg)%nat -> anpl !! S j = Some out -> p ∈ out -> lit_at i nv1 j (iv_index p)).
  { intros j out p Hj Ho Hp. pose proof (forward_passed E (fun _ => False) _ _ nv nv _ _ _ _ _ _ _ (net_same_refl _ _) (f_equal Z.of_nat Hlen) EF) as PA.
    destruct (lookup_lt_is_Some_2 (nv_layers nv1) j) as [lv Hlv]; [rewrite <- (Forall2_length _ _ _ S1); lia|].
    destruct (pa_slots _ _ _ _ _ _ _ _ _ _ PA j lv out p) as [d Hd]; [lia|done..|].
    unfold slot_at in Hd. destruct (lv_nodes lv !! Z.to_nat (iv_index p)) as [v|] eqn:Ev; [|done]. cbn in Hd.
    exists lv, v. split; [done|]. split; [done|]. eexists. split; [apply sget_Ok; split; [lia|exact Hd]|]. split; [exact Hd|apply on_slot]. }
  assert (HD : forall j size prev ty k l rp, cfg !! j = Some (size, prev, ty, k, l, rp) -> prev = dim D cfg j).
  { intros. by eapply HR. }
  set (P := fun (pre : list Z) (nv2 : NetView) => all_fit E batch cfg nv2 /\
    forall j out p, (j < length cfg - length pre)%nat -> anpl !! S j = Some out -> p ∈ out -> lit_at i nv2 j (iv_index p)).
  destruct (foldM_total P (ref_backward_layer E (Z.of_nat (length cfg)) i ex lr anpl) (rev (seqZ 0 (Z.of_nat (length cfg)))) nv1) as (nv' & -> & _).
  - split; [by apply all_shape_fit|]. intros j out p Hj. apply Hlit. cbn [length] in Hj. lia.
  - intros pre x nv2 [F2 L2] Hpre%rev_seqZ_at. destruct Hpre as [Hp ->]. set (j := (length cfg - S (length pre))%nat).
    assert (HSj : (length cfg - length pre)%nat = S j) by (unfold j; lia). rewrite HSj in L2. unfold ref_backward_layer.
    fold j.
    destruct (lookup_lt_is_Some_2 (nv_layers nv2) j) as [lv Hlv]; [rewrite <- (Forall2_length _ _ _ F2); unfold j; lia|].
    replace (sget (nv_layers nv2) (Z.of_nat j)) with (Ok lv) by (symmetry; apply sget_Ok; split; [lia|by rewrite Nat2Z.id]). cbn [mbind res_bind].
    destruct (HO j) as (cur & Hcur & Hcr & _ & Hcn); [unfold j; lia|].
    replace (sget anpl (Z.of_nat j)) with (Ok cur) by (symmetry; apply sget_Ok; split; [lia|by rewrite Nat2Z.id]). cbn [mbind res_bind].
    destruct (HO (S j)) as (out & Hout & Hor & _ & Hon); [unfold j; lia|].
    replace (sget anpl (Z.of_nat j + 1)) with (Ok out).
    2: { symmetry. apply sget_Ok. split; [lia|]. by replace (Z.to_nat (Z.of_nat j + 1)) with (S j) by lia. }
    cbn [mbind res_bind]. specialize (Hon ltac:(lia)).
    set (Q := fun (pre2 : list Pair) (nv3 : NetView) => all_fit E batch cfg nv3 /\
      (forall j' out p, (j' < j)%nat -> anpl !! S j' = Some out -> p ∈ out -> lit_at i nv3 j' (iv_index p)) /\
      (forall p, p ∈ drop (length pre2) out -> lit_at i nv3 j (iv_index p))).
    destruct (foldM_total Q (ref_backward_node E (Z.of_nat (length cfg)) i ex lr (Z.of_nat j) cur) out nv2) as (nv3 & Eq & (F3 & L3 & _)).
    + split; [done|]. split; [intros j' o p Hj' Ho Hin; eapply L2; [lia|done..]|]. intros p Hin. eapply L2; [lia|done|]. by rewrite drop_0 in Hin.
    + intros pre2 p nv3 (F3 & L3 & L3') Hpre2. pose proof (prefix_elem _ _ _ Hpre2) as Hin. pose proof (prefix_rest _ _ _ Hpre2) as Hdrop.
      rewrite Forall_forall in Hor. pose proof (Hor _ Hin) as [Hp0 _].
      destruct (back_node_total E batch D cfg lr i ex j cur nv3 p) as (nv4 & E4 & F4 & L4); try done.
      * unfold j; lia.
      * apply L3'. rewrite Hdrop. left.
      * intros j0 Hj0. split; [done|]. intros q Hq. rewrite Hj0 in Hcur. eapply L3; [lia|exact Hcur|done].
      * exists nv4. split; [exact E4|]. split; [done|]. split.
        -- intros j' o q Hj' Ho Hq. apply L4; [|intros [= ? _]; lia|by eapply L3].
           destruct (HO (S j')) as (o' & Ho' & Hr' & _); [unfold j in Hj'; lia|]. rewrite Ho in Ho'. injection Ho' as <-.
           rewrite Forall_forall in Hr'. by apply Hr'.
        -- intros q Hq. rewrite app_length in Hq. cbn [length] in Hq. replace (length pre2 + 1)%nat with (S (length pre2)) in Hq by lia.
           assert (Hqo : q ∈ out) by (eapply elem_of_list_lookup in Hq as [n Hq]; rewrite lookup_drop in Hq; by eapply elem_of_list_lookup_2).
           apply L4; [by apply Hor| |].
           ++ intros [= Hqp]. rewrite <- (take_drop (length pre2) out), Hdrop, map_app in Hon. cbn [map] in Hon.
              apply NoDup_app in Hon as (_ & _ & Hon). apply NoDup_cons in Hon as [Hon _]. apply Hon. rewrite <- Hqp. by apply elem_of_list_fmap_1.
           ++ apply L3'. rewrite Hdrop. by right.
    + exists nv3. split; [exact Eq|]. unfold P. split; [done|]. rewrite app_length. cbn [length].
      replace (length cfg - (length pre + 1))%nat with j by (unfold j; lia). done.
  - cbn [mbind res_bind]. by do 2 eexists.
Qed.
Lemma train_all_total (bad fair : Prop) (str : nat -> Z) E batch D cfg sps lr nv exs :
  rstream (nv_rng nv) = str -> all_shape E batch cfg (nv_layers nv) -> ready bad fair str E D cfg sps 0 ->
  (forall size prev ty k l rp, last cfg = Some (size, prev, ty, k, l, rp) -> ty = Softmax) ->
  Forall (fun ex => labels_ready E cfg sps 0 (labels ex) /\ Forall (in_range D) (features ex) /\ (length (features ex) <= D)%nat) exs ->
  (length exs <= batch)%nat -> (bad -> fair \/ ref_train_all E (Z.of_nat (length cfg)) sps lr nv exs <> Panic PFuel) ->
  exists ins nv', ref_train_all E (Z.of_nat (length cfg)) sps lr nv exs = Ok (ins, nv') /\ all_shape E batch cfg (nv_layers nv').
Proof.
  intros HG HS HR Hlast HF Hb. unfold ref_train_all. intros NF.
  match goal with |- context [foldM ?f ([], nv) _] => destruct (foldM_live bad fair (fun (_ : list (Z * Example_)) (st : list (list Z) * NetView) => all_shape E batch cfg (nv_layers st.2) /\ rstream (nv_rng st.2) = str) f (indexed exs) ([], nv)) as ([ins nv'] & Er & S' & _) end.
  - done.
  - exact NF.
  - clear NF. intros pre [i ex] [ins nv1] [S1 HG1] Hpre%indexed_take NF. cbn [fst snd] in Hpre, S1, HG1. destruct Hpre as (-> & Hex & _).
    pose proof (lookup_lt_Some _ _ _ Hex) as Hl. destruct (Forall_lookup_1 _ _ _ _ HF Hex) as (HL & Hf & Hfl).
    destruct (train_one_total bad fair str E batch D cfg sps lr nv1 (Z.of_nat (length pre)) ex) as (x & nv2 & E2 & S2); try done; [lia|intros B; destruct (NF B) as [F|N]; [by left|right; intros Hpf; apply N; by rewrite Hpf]|].
    rewrite E2. apply train_one_stream in E2. cbn [mbind res_bind]. eexists. split; [reflexivity|]. split; [done|]. cbn [snd]. unfold same_stream in E2. congruence.
  - eauto.
Qed.

(** * The update *)
Lemma update_params_total adam ty batch prev i lr v : node_shape adam ty batch prev i v ->
  exists v', ref_update_params adam lr v = Ok v' /\ node_kept v v'.
Proof.
  intros [_ Hw (HM & HV & HT) _ _]. unfold ref_update_params. destruct adam; [|eexists; split; [reflexivity|by constructor]].
  destruct (foldM_total (fun (_ : list Z) v1 => node_kept v v1) (ref_adam_weight lr) (seqZ 0 (Z.of_nat (length (v_t v)))) v) as (v' & -> & [K1 K2 K3 K4 K5 K6]).
  - by constructor.
  - intros pre x v1 [K1 K2 K3 K4 K5 K6] Hpre%seqZ_at. destruct Hpre as [Hp ->]. unfold ref_adam_weight.
    destruct (sget_in (v_t v1) (Z.of_nat (length pre))) as (t & -> & _); [lia|]. cbn [mbind res_bind].
    destruct (sget_in (v_mom v1) (Z.of_nat (length pre))) as (mo & -> & _); [lia|]. cbn [mbind res_bind].
    destruct (sget_in (v_vel v1) (Z.of_nat (length pre))) as (ve & -> & _); [lia|]. cbn [mbind res_bind]. cbn zeta.
    match goal with |- context [add_at ?xs ?q ?d] => destruct (add_at_total xs q d) as (w & -> & HL); [lia|] end. cbn [mbind res_bind].
    rewrite !sset_in by lia. cbn [mbind res_bind]. eexists. split; [reflexivity|].
    constructor; [exact K1|cbn; rewrite ?insert_length; lia..].
  - cbn [mbind res_bind]. eexists. split; [reflexivity|]. by constructor.
Qed.
Lemma insert_total E k l rp prev h t n w id : hash_works E k l rp prev -> made_hashers E k l prev h -> used_tables k l rp n t ->
  Z.of_nat (length w) = prev -> 0 <= id < Z.of_nat n ->
  exists t', ref_insert E h t w id = Ok t' /\ used_tables k l rp n t'.
Proof.
  intros HW Hh Ht Hw Hid. destruct (hw_weight _ _ _ _ _ HW h t n w Hh Ht Hw) as (hs & ix & E1 & E2 & V).
  unfold ref_insert. rewrite E1. cbn [mbind res_bind]. rewrite E2. cbn [mbind res_bind].
  pose proof Ht as (g & t0 & g' & ops & N0 & R & HF).
  destruct (lsh_reachable _ _ _ _ _ _ _ _ (hw_rp _ _ _ _ _ HW) N0 R) as (LI & _).
  destruct (lsh_Add_spec _ _ _ _ _ id LI V) as (rs & t' & EA & _). rewrite EA. cbn [mbind res_bind].
  eexists. split; [reflexivity|]. eapply (used_tables_more _ _ _ _ _ _ [LAdd ix id]); [exact Ht| |by apply Forall_singleton].
  unfold lsh_run. cbn [foldM lsh_step]. by rewrite EA.
Qed.
(** A layer that can be rehashed and rebuilt, if it is sparse. *)
Definition renewable (E : env) (prev : nat) (k l rp : Z) (sp : float64) : Prop :=
  fltb sp fone = true -> hash_works E k l rp (Z.of_nat prev).
Definition renew_all (E : env) (cfg : list (nat * nat * NodeType * Z * Z * Z)) (sps : list float64) : Prop :=
  forall j size prev ty k l rp, cfg !! j = Some (size, prev, ty, k, l, rp) -> exists sp, sps !! j = Some sp /\ renewable E prev k l rp sp.

Lemma update_layer_total E batch cfg lr sps rehash rebuild nv j :
  all_shape E batch cfg (nv_layers nv) -> renew_all E cfg sps -> (j < length cfg)%nat ->
  exists nv', ref_update_layer E lr sps rehash rebuild nv (Z.of_nat j) = Ok nv' /\ all_shape E batch cfg (nv_layers nv').
Proof.
  intros HS HR Hj. assert (G : exists nv', ref_update_layer E lr sps rehash rebuild nv (Z.of_nat j) = Ok nv').
  2: { destruct G as [nv' G]. exists nv'. split; [done|]. by eapply update_layer_shape. }
  destruct (lookup_lt_is_Some_2 cfg j Hj) as [[[[[[size prev] ty] k] l] rp] Hc].
  destruct (Forall2_lookup_l _ _ _ _ _ HS Hc) as (lv & Hlv & S). destruct (HR _ _ _ _ _ _ _ Hc) as (sp & Hsp & RN).
  unfold ref_update_layer.
  replace (sget (nv_layers nv) (Z.of_nat j)) with (Ok lv) by (symmetry; apply sget_Ok; split; [lia|by rewrite Nat2Z.id]). cbn [mbind res_bind].
  replace (sget sps (Z.of_nat j)) with (Ok sp) by (symmetry; apply sget_Ok; split; [lia|by rewrite Nat2Z.id]). cbn [mbind res_bind]. cbn zeta.
  set (lv1 := if rehash && fltb sp fone then lv_set_tables lv (lsh_Clear (lv_tables lv)) else lv).
  assert (S1 : layer_shape E batch size prev ty k l rp lv1).
  { unfold lv1. destruct (rehash && fltb sp fone); [|done]. eapply shape_move; [exact S|done..| | | |]; [|apply S|by apply Forall2_refl'|by eapply shape_calm in S].
    cbn [lv_tables lv_set_tables]. eapply (used_tables_more _ _ _ _ _ _ [LClear]); [apply S|done|by apply Forall_singleton]. }
  assert (E1 : exists lv2 g s, (if rebuild && fltb sp fone then
      '(h, g) ← make_hashers E (lv_hash lv1) (e_mh E (nv_seeds nv)) (lv_k lv1) (lv_l lv1) (lv_prev lv1) (nv_rng nv);
      Ok (lv_set_hash lv1 h, g, Datatypes.S (nv_seeds nv))
    else Ok (lv1, nv_rng nv, nv_seeds nv)) = Ok (lv2, g, s) /\ layer_shape E batch size prev ty k l rp lv2).
  { destruct (rebuild && fltb sp fone) eqn:Er; [|by do 3 eexists]. apply andb_true_iff in Er as [_ Hlt]. specialize (RN Hlt).
    rewrite (ss_k _ _ _ _ _ _ _ _ _ S1), (ss_l _ _ _ _ _ _ _ _ _ S1), (ss_prev _ _ _ _ _ _ _ _ _ S1).
    destruct (hw_make _ _ _ _ _ RN (lv_hash lv1) (nv_seeds nv) (nv_rng nv)) as (h & g & Em). rewrite Em. cbn [mbind res_bind].
    do 3 eexists. split; [reflexivity|]. eapply shape_move; [exact S1|done..| | | |]; [apply S1| |by apply Forall2_refl'|by eapply shape_calm in S1].
    cbn [lv_hash lv_set_hash]. by eapply make_hashers_made. }
  destruct E1 as (lv2 & g & s & -> & S2). cbn [mbind res_bind].
  set (P := fun (pre : list Z) (lv3 : LayerView) => length (lv_nodes lv3) = size /\
    (forall i v v', lv_nodes lv2 !! i = Some v -> lv_nodes lv3 !! i = Some v' -> (length pre <= i)%nat -> v' = v) /\
    lv_hash lv3 = lv_hash lv2 /\ used_tables k l rp size (lv_tables lv3)).
  edestruct (foldM_total P (ref_update_node E lr (rehash && fltb sp fone))) as (lv3 & -> & _); cycle 2.
  { cbn [mbind res_bind]. by eexists. }
  { split; [apply S2|]. split; [intros i v v' H1 H2 _; congruence|]. split; [done|apply S2]. }
  intros pre x lv3 (P1 & P2 & P3 & P4) Hpre%seqZ_at. destruct Hpre as [Hp ->]. rewrite (ss_size _ _ _ _ _ _ _ _ _ S2) in Hp. unfold ref_update_node.
  destruct (lookup_lt_is_Some_2 (lv_nodes lv3) (length pre)) as [v Hv]; [lia|].
  destruct (lookup_lt_is_Some_2 (lv_nodes lv2) (length pre)) as [v0 Hv0]; [rewrite (ss_size _ _ _ _ _ _ _ _ _ S2); lia|].
  pose proof (P2 _ _ _ Hv0 Hv ltac:(lia)) as ->. pose proof (ss_nodes _ _ _ _ _ _ _ _ _ S2 _ _ Hv0) as NS.
  replace (sget (lv_nodes lv3) (Z.of_nat (length pre))) with (Ok v0) by (symmetry; apply sget_Ok; split; [lia|by rewrite Nat2Z.id]). cbn [mbind res_bind].
  destruct (update_params_total _ _ _ _ _ lr _ NS) as (v1 & -> & K1). cbn [mbind res_bind].
  assert (E3 : exists t, (if rehash && fltb sp fone then ref_insert E (lv_hash lv3) (lv_tables lv3) (v_w v1) (Z.of_nat (length pre)) else Ok (lv_tables lv3)) = Ok t /\
    used_tables k l rp size t).
  { destruct (rehash && fltb sp fone) eqn:Er; [|by eexists]. apply andb_true_iff in Er as [_ Hlt].
    apply (insert_total E k l rp (Z.of_nat prev)); [by apply RN|rewrite P3; apply S2|done| |lia].
    rewrite (nk_w _ _ K1), (sh_w _ _ _ _ _ _ NS). done. }
  destruct E3 as (t & -> & Ht). cbn [mbind res_bind]. eexists. split; [reflexivity|].
  unfold P. cbn [lv_nodes lv_hash lv_tables lv_set_tables lv_set_nodes]. rewrite insert_length, app_length, Nat2Z.id. cbn [length].
  split; [done|]. split; [|done]. intros i w w' H1 H2 Hi. rewrite list_lookup_insert_ne in H2 by lia. eapply P2; [exact H1|exact H2|lia].
Qed.

Lemma reshuffle_total E batch cfg nv xs : all_shape E batch cfg (nv_layers nv) -> Forall (fun j => 0 <= j < Z.of_nat (length cfg)) xs ->
  exists nv', foldM ref_reshuffle nv xs = Ok nv' /\ all_shape E batch cfg (nv_layers nv').
Proof.
  intros HS Hx. destruct (foldM_total' (fun nv1 => all_shape E batch cfg (nv_layers nv1)) ref_reshuffle xs nv) as (nv' & Er & S'); [done| |by eauto].
  intros j nv1 S1 Hj. rewrite Forall_forall in Hx. specialize (Hx _ Hj). unfold ref_reshuffle.
  destruct (lookup_lt_is_Some_2 cfg (Z.to_nat j)) as [[[[[[size prev] ty] k] l] rp] Hc]; [lia|].
  destruct (Forall2_lookup_l _ _ _ _ _ S1 Hc) as (lv & Hlv & S).
  replace (sget (nv_layers nv1) j) with (Ok lv) by (symmetry; apply sget_Ok; split; [lia|done]). cbn [mbind res_bind]. cbn zeta.
  assert (HL : length (lv_rand lv) = length (lv_nodes lv)).
  { rewrite (ss_size _ _ _ _ _ _ _ _ _ S), (Permutation_length (ss_rand _ _ _ _ _ _ _ _ _ S)), seqZ_length. lia. }
  rewrite HL, Z.ltb_irrefl, andb_false_r.
  destruct (fisher_yates _ _ _) as [r g] eqn:Ef. eexists. split; [reflexivity|]. cbn [nv_layers].
  apply (all_shape_map E batch cfg (nv_layers nv1)); [done|by rewrite insert_length|]. intros q c lv1 lv2 Hq H1 H2.
  destruct (decide (q = Z.to_nat j)) as [->|Hne].
  - rewrite Hc in Hq. injection Hq as <-. rewrite list_lookup_insert in H2 by (eapply lookup_lt_Some; exact Hlv). injection H2 as <-.
    intros _. eapply shape_move; [exact S|done..| |done| | | |].
    all: cbn [lv_set_rand lv_rand lv_norm lv_tables lv_hash lv_nodes].
    + assert (Hf : foldM ref_reshuffle nv1 [j] = Ok (mkNV (<[Z.to_nat j := lv_set_rand lv r]> (nv_layers nv1)) g (nv_seeds nv1))).
      { cbn [foldM]. unfold ref_reshuffle. replace (sget (nv_layers nv1) j) with (Ok lv) by (symmetry; apply sget_Ok; split; [lia|done]).
        cbn [mbind res_bind]. cbn zeta. rewrite HL, Z.ltb_irrefl, andb_false_r, Ef. done. }
      apply reshuffle_spec in Hf as [Hf _].
      destruct (Forall2_lookup_l _ _ _ _ _ Hf Hlv) as (lv' & Hlv' & r' & -> & Hr'). cbn [nv_layers] in Hlv'.
      rewrite list_lookup_insert in Hlv' by (eapply lookup_lt_Some; exact Hlv). injection Hlv' as ->. done.
    + apply S.
    + apply S.
    + by apply Forall2_refl'.
    + by eapply shape_calm in S.
  - rewrite list_lookup_insert_ne in H2 by done. rewrite H1 in H2. injection H2 as ->. by destruct c as [[[[[? ?] ?] ?] ?] ?].
Qed.

Definition example_ready (E : env) (D : nat) (cfg : list (nat * nat * NodeType * Z * Z * Z)) (sps : list float64) (ex : Example_) : Prop :=
  labels_ready E cfg sps 0 (labels ex) /\ Forall (in_range D) (features ex) /\ (length (features ex) <= D)%nat.
Lemma process_total (bad fair : Prop) (str : nat -> Z) E batch D cfg sps lr0 nv exs iter rehash rebuild :
  rstream (nv_rng nv) = str -> all_shape E batch cfg (nv_layers nv) -> ready bad fair str E D cfg sps 0 -> renew_all E cfg sps ->
  (forall size prev ty k l rp, last cfg = Some (size, prev, ty, k, l, rp) -> ty = Softmax) ->
  Forall (example_ready E D cfg sps) exs -> (length exs <= batch)%nat ->
  (bad -> fair \/ ref_process E (Z.of_nat (length cfg)) sps lr0 nv exs iter rehash rebuild <> Panic PFuel) ->
  exists ins nv', ref_process E (Z.of_nat (length cfg)) sps lr0 nv exs iter rehash rebuild = Ok (ins, nv') /\ all_shape E batch cfg (nv_layers nv').
Proof.
  intros HG HS HR HN Hlast HF Hb NF. unfold ref_process, make_slice in *. destruct (Z.ltb_spec (Z.of_nat (length cfg)) 0) as [?|_]; [lia|]. cbn [mbind res_bind] in *.
  assert (E1 : exists nv1, (if Z.rem iter 6946 =? 6945 then foldM ref_reshuffle nv (seqZ 1 (Z.of_nat (length cfg) - 1)) else Ok nv) = Ok nv1 /\
    all_shape E batch cfg (nv_layers nv1)).
  { destruct (_ =? _); [|by eexists]. apply reshuffle_total; [done|]. rewrite Forall_forall. intros x Hx%elem_of_seqZ. lia. }
  destruct E1 as (nv1 & E1 & S1).
  assert (HG1 : rstream (nv_rng nv1) = str).
  { clear -HG E1. destruct (_ =? _); [|by injection E1 as <-]. apply reshuffle_stream in E1. unfold same_stream in E1. congruence. }
  rewrite E1 in *. cbn [mbind res_bind] in *. cbn zeta in *.
  destruct (train_all_total bad fair str E batch D cfg sps (step_lr E lr0 iter) nv1 exs) as (ins & nv2 & -> & S2); try done; [intros B; destruct (NF B) as [F|N]; [by left|right; intros Hpf; apply N; by rewrite Hpf]|].
  clear NF. cbn [mbind res_bind].
  rewrite <- (Forall2_length _ _ _ S2).
  destruct (foldM_total (fun (_ : list Z) nv3 => all_shape E batch cfg (nv_layers nv3)) (ref_update_layer E (step_lr E lr0 iter) sps rehash rebuild)
    (seqZ 0 (Z.of_nat (length cfg))) nv2) as (nv3 & -> & S3); [done| |].
  - intros pre x nv3 S3 Hpre%seqZ_at. destruct Hpre as [Hp ->]. by apply update_layer_total.
  - cbn [mbind res_bind]. eauto.
Qed.

(** * Prediction *)
Lemma predict_total (bad fair : Prop) (str : nat -> Z) E batch D cfg sps nv exs :
  rstream (nv_rng nv) = str -> all_shape E batch cfg (nv_layers nv) -> ready bad fair str E D cfg sps (length cfg) -> (0 < length cfg)%nat ->
  Forall (fun ex => Forall (in_range D) (features ex) /\ (length (features ex) <= D)%nat) exs -> (length exs <= batch)%nat ->
  (bad -> fair \/ ref_predict E (Z.of_nat (length cfg)) sps nv exs <> Panic PFuel) ->
  exists cnt nv', ref_predict E (Z.of_nat (length cfg)) sps nv exs = Ok (cnt, nv') /\ all_shape E batch cfg (nv_layers nv').
Proof.
  intros HStr HS HR Hn HF Hb NF. unfold ref_predict in *.
  assert (HG : forall nv1, all_shape E batch cfg (nv_layers nv1) -> exists lv size prev ty k l rp, sget (nv_layers nv1) (Z.of_nat (length cfg) - 1) = Ok lv /\
    last cfg = Some (size, prev, ty, k, l, rp) /\ layer_shape E batch size prev ty k l rp lv).
  { intros nv1 S1. destruct (last cfg) as [[[[[[size prev] ty] k] l] rp]|] eqn:El; [|apply last_None in El; subst; cbn in Hn; lia].
    rewrite last_lookup in El. destruct (Forall2_lookup_l _ _ _ _ _ S1 El) as (lv & Hlv & S).
    exists lv, size, prev, ty, k, l, rp. split; [|done]. apply sget_Ok. split; [lia|]. rewrite <- Hlv. f_equal. lia. }
  destruct (HG nv HS) as (lv & _ & _ & _ & _ & _ & _ & Hg & _). rewrite Hg in *. cbn [mbind res_bind] in *.
  match goal with |- context [foldM ?f (0, nv) _] => destruct (foldM_live bad fair (fun (_ : list (Z * Example_)) (st : Z * NetView) => all_shape E batch cfg (nv_layers st.2) /\ rstream (nv_rng st.2) = str) f (indexed exs) (0, nv)) as ([cnt nv'] & Er & S' & _) end.
  - done.
  - exact NF.
  - clear NF. intros pre [i ex] [c nv1] [S1 HG1] Hpre%indexed_take NF. cbn [fst snd] in Hpre, S1, HG1. destruct Hpre as (-> & Hex & _).
    pose proof (lookup_lt_Some _ _ _ Hex) as Hl. destruct (Forall_lookup_1 _ _ _ _ HF Hex) as (Hf & Hfl). unfold ref_predict_one in *.
    destruct (forward_total bad fair str E batch D cfg sps (length cfg) nv1 (Z.of_nat (length pre)) (features ex) []) as (anpl & ins & nv2 & E2 & S2 & HA & HO); try done.
    { intros j size prev ty k l rp Hc. split; [intros _; split; [apply NoDup_nil_2|done]|]. intros sp Hsp.
      destruct (HR _ _ _ _ _ _ _ Hc) as (_ & _ & sp' & Hsp' & U). rewrite Hsp in Hsp'. injection Hsp' as <-. eapply usable_room; [exact U|by left]. }
    { lia. } { intros B; destruct (NF B) as [F|N]; [by left|right; intros Hpf; apply N; by rewrite Hpf]. }
    clear NF. rewrite E2. apply forward_stream in E2.
    cbn [mbind res_bind]. destruct (HO (length cfg)) as (out & Hout & Hor & _); [lia|].
    replace (sget anpl (Z.of_nat (length cfg))) with (Ok out) by (symmetry; apply sget_Ok; split; [lia|by rewrite Nat2Z.id]). cbn [mbind res_bind].
    destruct (HG nv2 S2) as (lv2 & size & prev & ty & k & l & rp & -> & El & SL). cbn [mbind res_bind].
    assert (Hd : dim D cfg (length cfg) = size).
    { rewrite last_lookup in El. destruct (length cfg) as [|n] eqn:Ec; [lia|]. cbn [dim]. cbn [Nat.pred] in El. by rewrite El. }
    rewrite Hd in Hor.
    destruct (foldM_total' (fun _ => True) (ref_argmax (lv_nodes lv2) (Z.of_nat (length pre))) (indexed out) (fzero, 0)) as ([mx cl] & -> & _); [done| |].
    + intros [q p] [mx cl] _ Hp. apply elem_of_list_lookup in Hp as [n Hp]. apply indexed_lookup in Hp as [_ Hp]. apply elem_of_list_lookup_2 in Hp.
      rewrite Forall_forall in Hor. specialize (Hor _ Hp). unfold in_range in Hor. unfold ref_argmax.
      destruct (sget_in (lv_nodes lv2) (iv_index p)) as (v & -> & Hv); [rewrite (ss_size _ _ _ _ _ _ _ _ _ SL); lia|]. cbn [mbind res_bind].
      destruct (sget_in (v_slots v) (Z.of_nat (length pre))) as (s & -> & _).
      { rewrite (sh_slots _ _ _ _ _ _ (ss_nodes _ _ _ _ _ _ _ _ _ SL _ _ Hv)). lia. }
      cbn [mbind res_bind]. eauto.
    + cbn [mbind res_bind]. eexists. split; [reflexivity|]. split; [done|]. cbn [snd]. unfold same_stream in E2. congruence.
  - eauto.
Qed.
