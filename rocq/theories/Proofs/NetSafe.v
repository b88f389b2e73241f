(** Well-formed configurations give networks on which every well-formed call succeeds. *)
From Verif.Proofs Require Import BaseProofs FifoProofs FloatOrder SelectProofs NetCalls SrpProofs DwtaProofs LshProofs NetTotal NetRng Sampling.
From Verif.Spec Require Import LshSpec LayerSpec SafeSpec.
Local Open Scope Z_scope.

Lemma mapM_res_total {A B} (f : A -> res B) (R : B -> Prop) xs : (forall x, x ∈ xs -> exists y, f x = Ok y /\ R y) ->
  exists ys, mapM_res f xs = Ok ys /\ length ys = length xs /\ Forall R ys.
Proof.
  induction xs as [|x xs IH]; intros H; [by exists []|]. cbn [mapM_res].
  destruct (H x) as (y & -> & Hy); [set_solver|]. destruct IH as (ys & E & HL & HF); [set_solver|].
  rewrite E. exists (y :: ys). split; [done|]. split; [cbn; lia|by constructor].
Qed.

(** * Sparse random projection *)
Lemma srp_merge_total t data p ind bits :
  0 <= p -> srp_indices t !! Z.to_nat p = Some ind -> srp_randBits t !! Z.to_nat p = Some bits ->
  Z.of_nat (length ind) = srp_samSize t -> length bits = length ind ->
  forall fuel i j s, 0 <= i -> 0 <= j -> (length data - Z.to_nat i + (length ind - Z.to_nat j) <= fuel)%nat ->
  exists r, srp_merge fuel t data p i j s = Ok r.
Proof.
  intros Hp Hi Hb HL HB. induction fuel as [|fuel IH]; intros i j s H1 H2 Hf; cbn [srp_merge].
  all: destruct (Z.ltb_spec i (Z.of_nat (length data))), (Z.ltb_spec j (srp_samSize t)); cbn [andb]; try by eexists.
  - exfalso. lia.
  - destruct (sget_in data i) as (d & -> & _); [lia|]. cbn [mbind res_bind].
    rewrite (proj2 (sget_Ok (srp_indices t) p ind) (conj Hp Hi)). cbn [mbind res_bind].
    destruct (sget_in ind j) as (ix & -> & _); [lia|]. cbn [mbind res_bind].
    destruct (iv_index d =? ix); [|destruct (iv_index d <? ix)].
    + rewrite (proj2 (sget_Ok (srp_randBits t) p bits) (conj Hp Hb)). cbn [mbind res_bind].
      destruct (sget_in bits j) as (rb & -> & _); [lia|]. cbn [mbind res_bind]. apply IH; lia.
    + apply IH; lia.
    + apply IH; lia.
Qed.
Lemma srp_sign_bit s : srp_sign s = 0 \/ srp_sign s = 1.
Proof. unfold srp_sign. destruct (fgeb s fzero); auto. Qed.
Lemma srp_sparse_total t dim H data : srp_good t dim H -> 0 <= H ->
  exists hs, srp_GetHashSparse t data = Ok hs /\ Z.of_nat (length hs) = H /\ Forall (fun b => b = 0 \/ b = 1) hs.
Proof.
  intros G HH. pose proof G as (HN & _). unfold srp_GetHashSparse, make_slice. rewrite HN. replace (H <? 0) with false by lia. cbn [mbind res_bind].
  rewrite replicate_length, Z2Nat.id by lia.
  match goal with |- context [mapM_res ?f ?xs] => destruct (mapM_res_total f (fun b => b = 0 \/ b = 1) xs) as (hs & -> & HL & HF) end.
  - intros p Hp%elem_of_seqZ. destruct (srp_rows _ _ _ p G) as (ind & bits & Hi & Hb & (R1 & R2 & R3)); [lia|].
    destruct (srp_merge_total t data p ind bits) with (fuel := (length data + Z.to_nat (srp_samSize t))%nat) (i := 0) (j := 0) (s := fzero) as (r & ->); try done; try lia.
    cbn [mbind res_bind]. eexists. split; [reflexivity|apply srp_sign_bit].
  - exists hs. split; [done|]. split; [|done]. rewrite HL, seqZ_length. lia.
Qed.
Lemma srp_dense_total t dim H w : srp_good t dim H -> 0 <= H -> dim <= Z.of_nat (length w) ->
  exists hs, srp_GetHash t w = Ok hs /\ Z.of_nat (length hs) = H /\ Forall (fun b => b = 0 \/ b = 1) hs.
Proof.
  intros G HH Hw. destruct (srp_dense_is_sign t dim H w G Hw HH) as (hs & E & HL & Hs). exists hs. split; [done|]. split; [done|].
  rewrite Forall_lookup. intros i b Hb. pose proof (lookup_lt_Some _ _ _ Hb) as Hl.
  destruct (Hs (Z.of_nat i)) as (? & ? & _ & _ & Hx); [lia|]. rewrite Nat2Z.id, Hb in Hx. injection Hx as ->. apply srp_sign_bit.
Qed.

Lemma fits_works E k l rp prev : hash_fits E k l rp prev -> hash_works E k l rp prev /\ 0 <= k /\ k * l < 2 ^ 63.
Proof.
  intros (Hl & Hrp & HF). destruct (e_Hash E) eqn:EH; [done| |done| |done].
  - (* DWTA *)
    destruct HF as (Hk & Hx & Hs & Hp & Hlog). assert (HB : 0 <= k * l < 2 ^ 53) by nia.
    assert (HW : wrap64 (k * l) = k * l) by (apply wrap64_small; unfold in_int64, minInt64, maxInt64; lia).
    assert (HM : forall h0 s g, exists h g', make_hashers E h0 (e_mh E s) k l prev g = Ok (h, g')).
    { intros h0 s g. unfold make_hashers. rewrite EH, HW. unfold make_slice. destruct (Z.ltb_spec prev 0) as [?|_]; [lia|]. cbn [mbind res_bind].
      destruct (dwta_New_spec (e_log2 E) (k * l) prev g) as (dw & g' & -> & _); [lia..|]. cbn [mbind res_bind]. eauto. }
    assert (HD : forall h, made_hashers E k l prev h -> exists g dw g', hs_dwta h = Some dw /\ dwta_New (e_log2 E) (k * l) prev g = Ok (dw, g')).
    { intros h H. unfold made_hashers in H. rewrite EH, HW in H. destruct H as (g & dw & g2 & E1 & E2). by exists g, dw, g2. }
    assert (HV : forall t n hs, used_tables k l rp n t -> Z.of_nat (length hs) = k * l -> Forall (fun d => 0 <= d < 8) hs ->
      exists ix, lsh_HashesToIndex (e_Hash E) t hs = Ok ix /\ valid_indices l rp ix).
    { intros t n hs (g & t0 & g' & ops & N0 & R & _) L1 L2.
      destruct (lsh_reachable _ _ _ _ _ _ _ _ Hrp N0 R) as (LI & _).
      destruct (dwta_lookup_safe DensifiedWtaHashFunction _ _ _ _ _ _ _ _ ltac:(by right) Hrp Hk N0 R) as [HS _]. destruct (HS Hx hs L1 L2) as (ix & rs & E1 & E2).
      exists ix. rewrite EH. split; [done|]. apply (lsh_RetrieveRaw_panics _ _ _ _ _ LI). eauto. }
    split; [|lia]. constructor; try done.
    + intros h t n cur Hh Ht Hc. destruct (HD h Hh) as (g & dw & g' & Hdw & HN).
      destruct (dwta_digits (e_log2 E) (k * l) prev g dw g') as [HG _]; [lia..|done|].
      destruct (HG cur Hc) as (hs & E1 & L1 & L2). destruct (HV t n hs Ht L1 L2) as (ix & E2 & V).
      exists hs, ix. split; [|done]. unfold query_hashes. rewrite EH, Hdw. cbn [notnil mbind res_bind]. done.
    + intros h t n w Hh Ht Hc. destruct (HD h Hh) as (g & dw & g' & Hdw & HN).
      destruct (dwta_digits (e_log2 E) (k * l) prev g dw g') as [_ HG]; [lia..|done|].
      destruct (HG w topK) as (hs & E1 & L1 & L2); [lia|]. destruct (HV t n hs Ht L1 L2) as (ix & E2 & V).
      exists hs, ix. split; [|done]. unfold weight_hashes. rewrite EH, Hdw. cbn [notnil mbind res_bind]. done.
  - (* SRP *)
    destruct HF as (Hk & Hs & Hp). assert (HB : 0 <= k * l < 2 ^ 63) by nia.
    assert (HW : wrap64 (k * l) = k * l) by (apply wrap64_small; unfold in_int64, minInt64, maxInt64; lia).
    assert (HM : forall g, exists t g', srp_New prev (k * l) srpRatio g = Ok (t, g') /\ srp_good t prev (k * l)).
    { intros g. destruct (srp_New_ok prev (k * l) srpRatio g) as (t & g' & E1 & _ & _ & G); [lia|unfold srpRatio; lia|lia|]. eauto. }
    assert (HD : forall h, made_hashers E k l prev h -> exists t, hs_srp h = Some t /\ srp_good t prev (k * l)).
    { intros h H. unfold made_hashers in H. rewrite EH, HW in H. destruct H as (g & t & g2 & E1 & E2). destruct (HM g) as (t' & g3 & E3 & G).
      change srpRatio with 32 in E3. rewrite E1 in E3. injection E3 as <- _. by exists t. }
    assert (HV : forall t n hs, used_tables k l rp n t -> Z.of_nat (length hs) = k * l -> Forall (fun b => b = 0 \/ b = 1) hs ->
      exists ix, lsh_HashesToIndex (e_Hash E) t hs = Ok ix /\ valid_indices l rp ix).
    { intros t n hs (g & t0 & g' & ops & N0 & R & _) L1 L2.
      destruct (lsh_reachable _ _ _ _ _ _ _ _ Hrp N0 R) as (LI & _).
      destruct (srp_lookup_safe k l rp _ _ _ _ _ Hrp ltac:(lia) N0 R) as [HS _]. destruct (HS ltac:(lia) hs L1 L2) as (ix & rs & E1 & E2).
      exists ix. rewrite EH. split; [done|]. apply (lsh_RetrieveRaw_panics _ _ _ _ _ LI). eauto. }
    split; [|lia]. constructor; try done.
    + intros h0 s g. unfold make_hashers. rewrite EH, HW. destruct (HM g) as (t & g2 & -> & G). cbn [mbind res_bind]. eauto.
    + intros h t n cur Hh Ht Hc. destruct (HD h Hh) as (sr & Hsr & G). destruct (srp_sparse_total sr prev (k * l) cur G) as (hs & E1 & L1 & L2); [lia|].
      destruct (HV t n hs Ht L1 L2) as (ix & E2 & V). exists hs, ix. split; [|done]. unfold query_hashes. rewrite EH, Hsr. cbn [notnil mbind res_bind]. done.
    + intros h t n w Hh Ht Hc. destruct (HD h Hh) as (sr & Hsr & G). destruct (srp_dense_total sr prev (k * l) w G) as (hs & E1 & L1 & L2); [lia..|].
      destruct (HV t n hs Ht L1 L2) as (ix & E2 & V). exists hs, ix. split; [|done]. unfold weight_hashes. rewrite EH, Hsr. cbn [notnil mbind res_bind]. done.
Qed.

(** * Construction *)
Lemma layer_new_total E norm pos N P ty batch k l rp g s : hash_works E k l rp (Z.of_nat P) -> 0 <= k -> k * l < 2 ^ 63 ->
  exists lv g', ref_layer_new E norm pos N P ty batch k l rp g s = Ok (lv, g').
Proof.
  intros HW Hk Hkl. unfold ref_layer_new. destruct (shuffle _ g) as [rand g1].
  destruct (lsh_New_spec k l rp g1 Hk (hw_l _ _ _ _ _ HW) (hw_rp _ _ _ _ _ HW) Hkl) as (t0 & g2 & N0 & _). rewrite N0. cbn [mbind res_bind].
  destruct (hw_make _ _ _ _ _ HW no_hashers s g2) as (h & g3 & Em). rewrite Em. cbn [mbind res_bind]. cbn zeta.
  match goal with |- context [foldM ?f t0 (seq 0 N)] => destruct (foldM_total' (used_tables k l rp N) f (seq 0 N) t0) as (t & -> & _) end.
  - by exists g1, t0, g2, [].
  - intros i t Ht Hi%elem_of_seq. apply (insert_total E k l rp (Z.of_nat P)); [done|by eapply make_hashers_made|done| |lia].
    by rewrite map_length, seq_length.
  - cbn [mbind res_bind]. eauto.
Qed.
Lemma net_new_total mode E norm num sizes types batch inputDim k l rp sparsity pos g s :
  well_formed_with mode E num sizes types batch inputDim k l rp sparsity ->
  exists nv, ref_net_new E norm num sizes types batch inputDim k l rp sparsity pos g s = Ok nv.
Proof.
  intros (Hn & Hb & Hd & HF). unfold ref_net_new, make_slice. destruct (Z.ltb_spec num 0) as [?|_]; [lia|]. cbn [mbind res_bind].
  match goal with |- context [foldM ?f ?s0 ?xs] => destruct (foldM_total (fun (pre : list Z) (st : list LayerView * Z * nat * rng * nat) =>
    (inputDim :: sizes) !! length pre = Some st.1.1.1.2) f xs s0) as ([[[[lvs p1] pos1] g1] s1] & -> & _) end.
  - done.
  - intros pre x [[[[ls pr] ps] g2] s2] Hpr Hpre. cbn in Hpr. rewrite <- (Z2Nat.id num) in Hpre by lia. apply seqZ_at in Hpre as [Hl ->].
    destruct (HF (length pre)) as (size & prev & ty & kj & lj & rj & sp & sp' & Hs & Hp & Ht & Hk & Hlj & Hr & Hsp & _ & H0 & _ & _ & _ & _ & HH & _); [lia|].
    rewrite Hp in Hpr. injection Hpr as <-. unfold ref_new_layer.
    assert (HG : forall {A} (xs : list A) y, xs !! length pre = Some y -> sget xs (Z.of_nat (length pre)) = Ok y).
    { intros A xs y H. apply sget_Ok. split; [lia|by rewrite Nat2Z.id]. }
    rewrite (HG _ _ _ Hs), (HG _ _ _ Ht), (HG _ _ _ Hk), (HG _ _ _ Hlj), (HG _ _ _ Hr), (HG _ _ _ Hsp). cbn [mbind res_bind].
    apply fits_works in HH as (HW & Hk0 & Hkl).
    assert (Hp0 : 0 <= prev).
    { destruct (length pre) as [|q] eqn:Eq; [cbn in Hp; injection Hp as <-; done|]. change (sizes !! q = Some prev) in Hp.
      destruct (HF q) as (size1 & _ & _ & _ & _ & _ & _ & _ & Hs1 & _ & _ & _ & _ & _ & _ & _ & H1 & _); [lia|]. rewrite Hp in Hs1. injection Hs1 as <-. done. }
    rewrite <- (Z2Nat.id prev) in HW by done.
    edestruct (layer_new_total E norm ps (Z.to_nat size) (Z.to_nat prev) ty (Z.to_nat batch) kj lj rj g2 s2 HW Hk0 Hkl) as (lv & g3 & ->).
    cbn [mbind res_bind]. eexists. split; [reflexivity|]. cbn [fst snd]. rewrite app_length. cbn [length]. rewrite Nat.add_1_r. exact Hs.
  - cbn [mbind res_bind]. eauto.
Qed.

(** * The calls *)
Lemma feqb_fltb x y : feqb x y = true -> fltb x y = false.
Proof.
  destruct (fltb x y) eqn:El; [|done]. intros He. apply fltb_key in El as (_ & _ & El). apply feqb_key in He as (_ & _ & He). rewrite He in El.
  destruct (fkey y) as [[a b] c]. cbn in El. lia.
Qed.

Section Calls.
  Context (bad fair : Prop) (str : nat -> Z) (E : env) (c num batch inputDim : Z) (sizes : list Z) (types : list NodeType) (lr : float64) (k l rp : list Z) (sparsity : list float64).
  Context (cfg : list (nat * nat * NodeType * Z * Z * Z)) (HC : cfg_of cfg sizes types inputDim k l rp) (Hnum : num = Z.of_nat (length cfg)).

  Lemma cfg_dim j size prev ty kj lj rj : cfg !! j = Some (size, prev, ty, kj, lj, rj) -> prev = dim (Z.to_nat inputDim) cfg j.
  Proof.
    intros H. destruct (HC _ _ H) as (size' & prev' & ty' & kj' & lj' & rj' & [= -> -> -> -> -> ->] & Hs & Hp & _).
    destruct j as [|j]; cbn [dim]; [cbn in Hp; injection Hp as <-; done|]. change (sizes !! j = Some prev') in Hp.
    destruct (lookup_lt_is_Some_2 cfg j) as [cj Hj]; [apply lookup_lt_Some in H; lia|]. rewrite Hj.
    destruct (HC _ _ Hj) as (size1 & prev1 & ty1 & k1 & l1 & r1 & -> & Hs1 & _). rewrite Hp in Hs1. injection Hs1 as ->. done.
  Qed.
  Lemma fits_train exs : ready bad fair str E (Z.to_nat inputDim) cfg sparsity 0 -> (bad -> forall j size, Z.of_nat j < num -> sizes !! j = Some size -> 0 <= size) -> (bad -> Forall (labels_room num sizes types sparsity) exs) ->
    Forall (fun ex => features_fit inputDim ex /\ labels_fit num sizes types ex) exs -> Forall (example_ready E (Z.to_nat inputDim) cfg sparsity) exs.
  Proof.
    intros R0 Hsz HB HF. rewrite Forall_forall in HF. rewrite Forall_forall. intros ex Hex. destruct (HF _ Hex) as [[F1 F2] [L1 L2]]. split; [|split; [|lia]].
    - intros j size prev ty kj lj rj H. split.
      2: { intros sp Hsp. destruct (R0 _ _ _ _ _ _ _ H) as (_ & _ & sp' & Hsp' & U). rewrite Hsp in Hsp'. injection Hsp' as <-.
        eapply usable_room; [exact U|]. intros B. right. intros Hs _ Hd. specialize (HB B). rewrite Forall_forall in HB.
        destruct (HC _ _ H) as (size' & prev' & ty' & kj' & lj' & rj' & [= -> -> -> -> -> ->] & Hs' & _ & Ht & _).
        assert (Hj : Z.of_nat j < num) by (apply lookup_lt_Some in H; lia).
        destruct ty'; try done. rewrite Z2Nat.id by (by eapply (Hsz B)). by apply (HB _ Hex j). }
      intros Hs. split; [done|].
      destruct (HC _ _ H) as (size' & prev' & ty' & kj' & lj' & rj' & [= -> -> -> -> -> ->] & Hs' & _ & Ht & _).
      destruct ty'; try done. assert (HL : Forall (fun x => 0 <= x < size') (labels ex)) by (apply (L2 j); [apply lookup_lt_Some in H; lia|done..]).
      eapply Forall_impl; [exact HL|]. cbn beta. lia.
    - eapply Forall_impl; [exact F1|]. unfold in_range. cbn beta. lia.
  Qed.
  Lemma fits_predict exs : Forall (features_fit inputDim) exs ->
    Forall (fun ex => Forall (in_range (Z.to_nat inputDim)) (features ex) /\ (length (features ex) <= Z.to_nat inputDim)%nat) exs.
  Proof.
    intros HF. eapply Forall_impl; [exact HF|]. intros ex [F1 F2]. split; [|lia]. eapply Forall_impl; [exact F1|]. unfold in_range. cbn beta. lia.
  Qed.

  Context (Hpos : (0 < length cfg)%nat)
    (R0 : ready bad fair str E (Z.to_nat inputDim) cfg sparsity 0) (R1 : ready bad fair str E (Z.to_nat inputDim) cfg sparsity (length cfg)) (RN : renew_all E cfg sparsity)
    (HLast : forall size prev ty k l rp, last cfg = Some (size, prev, ty, k, l, rp) -> ty = Softmax)
    (Hsz : bad -> forall j size, Z.of_nat j < num -> sizes !! j = Some size -> 0 <= size).
  Lemma call_total n nv o : rstream (nv_rng nv) = str -> nw_num n = num -> nw_sparsity n = sparsity -> all_shape E (Z.to_nat batch) cfg (nv_layers nv) ->
    call_fits num sizes types batch inputDim o -> (bad -> call_room num sizes types sparsity o) -> (bad -> fair \/ ref_call E n nv o <> Panic PFuel) ->
    exists nv', ref_call E n nv o = Ok nv' /\ all_shape E (Z.to_nat batch) cfg (nv_layers nv') /\ rstream (nv_rng nv') = str.
  Proof.
    intros HG N1 N2 HS. destruct o as [exs iter rehash rebuild|exs]; intros [Hb HF] HB NF; cbn [ref_call call_room] in *; rewrite N1, N2, Hnum in NF |- *.
    - destruct (process_total bad fair str E (Z.to_nat batch) (Z.to_nat inputDim) cfg sparsity (nw_lr n) nv exs iter rehash rebuild) as (ins & nv' & EP & S'); try done;
        [by apply fits_train|lia|intros B; destruct (NF B) as [F|N]; [by left|right; intros Hpf; apply N; by rewrite Hpf]|]. rewrite EP. cbn [mbind res_bind]. eexists. split; [reflexivity|]. split; [done|]. apply process_stream in EP. unfold same_stream in EP. congruence.
    - destruct (predict_total bad fair str E (Z.to_nat batch) (Z.to_nat inputDim) cfg sparsity nv exs) as (cnt & nv' & EP & S'); try done;
        [by apply fits_predict|lia|intros B; destruct (NF B) as [F|N]; [by left|right; intros Hpf; apply N; by rewrite Hpf]|]. rewrite EP. cbn [mbind res_bind]. eexists. split; [reflexivity|]. split; [done|]. apply predict_stream in EP. unfold same_stream in EP. congruence.
  Qed.
  Lemma calls_total n nv m os : rstream (nv_rng nv) = str -> nw_num n = num -> nw_sparsity n = sparsity -> live E m c n nv -> all_shape E (Z.to_nat batch) cfg (nv_layers nv) ->
    Forall (call_fits num sizes types batch inputDim) os -> (bad -> Forall (call_room num sizes types sparsity) os) ->
    (bad -> fair \/ call_ops E c n os m <> Panic PFuel) -> exists m', call_ops E c n os m = Ok (n, m').
  Proof.
    intros HG N1 N2 L HS HF HB NF. pose proof (live_calls E c n os m nv L) as HR.
    destruct (foldM_live bad fair (fun _ nv1 => all_shape E (Z.to_nat batch) cfg (nv_layers nv1) /\ rstream (nv_rng nv1) = str) (ref_call E n) os nv) as (nv' & Er & _); [done| | |].
    { intros B. destruct (NF B) as [F|N]; [by left|right]. intros Hp. rewrite Hp in HR. by apply N. }
    { intros pre o nv1 [S1 HG1] Ho%prefix_elem NF1. rewrite Forall_forall in HF. apply call_total; try done; [by apply HF|].
      intros B. specialize (HB B). rewrite Forall_forall in HB. by apply HB. }
    rewrite Er in HR. destruct HR as (n' & m' & E1 & -> & _). by exists m'.
  Qed.
End Calls.

Lemma last_at {A} (xs : list A) x : last xs = Some x -> xs !! (length xs - 1)%nat = Some x.
Proof. rewrite last_lookup. by replace (Nat.pred (length xs)) with (length xs - 1)%nat by lia. Qed.

Lemma fits_usable bad fair str E size prev ty k l rp sp : 0 <= prev -> hash_fits E k l rp prev -> mode_fits E ty size sp ->
  usable bad fair str E (Z.to_nat size) (Z.to_nat prev) ty k l rp sp.
Proof.
  intros Hp HH. apply fits_works in HH as (HW & _). intros [M|M]; [by left|]. right. rewrite Z2Nat.id by done. destruct (e_Mode E); try done; [by left|]. split; [done|]. lia.
Qed.
Lemma samples_usable str E size prev ty k l rp sp : 0 <= prev -> hash_fits E k l rp prev -> mode_samples E ty size sp ->
  usable True False str E (Z.to_nat size) (Z.to_nat prev) ty k l rp sp.
Proof.
  intros Hp HH [M|(M & Hs & Hf)]; [by apply fits_usable|]. right. rewrite M. right. rewrite Z2Nat.id by lia. split; [done|]. split; [done|]. split; [lia|]. split; [unfold mapLen; lia|done].
Qed.
Lemma covers_usable str E size prev ty k l rp sp : 0 <= prev -> hash_fits E k l rp prev -> mode_covers str E ty size sp ->
  usable True True str E (Z.to_nat size) (Z.to_nat prev) ty k l rp sp.
Proof.
  intros Hp HH [M|(M & Hs & Hf & W & HC & HW)]; [by apply fits_usable|]. right. rewrite M. right. split; [done|]. split.
  - intros _ label g Hg. rewrite Z2Nat.id by lia. eapply select_mode2_ends; try done; lia.
  - rewrite Z2Nat.id by lia. split; [lia|]. split; [unfold mapLen; lia|]. apply Hf.
Qed.

Lemma calls_with (bad fair : Prop) mode E c num sizes types batch lr inputDim k l rp sparsity m :
  e_LoadWeight E = false -> well_formed_with mode E num sizes types batch inputDim k l rp sparsity ->
  (forall size prev ty k l rp sp, 0 <= prev -> hash_fits E k l rp prev -> mode ty size sp -> usable bad fair (rstream (m_rng m)) E (Z.to_nat size) (Z.to_nat prev) ty k l rp sp) ->
  exists n m', network_New E c num sizes types batch lr inputDim k l rp sparsity m = Ok (n, m') /\
    forall os, Forall (call_fits num sizes types batch inputDim) os -> (bad -> Forall (call_room num sizes types sparsity) os) ->
    (bad -> fair \/ call_ops E c n os m' <> Panic PFuel) -> exists m'', call_ops E c n os m' = Ok (n, m'').
Proof.
  intros HL W HU. pose proof W as (Hn & Hb & Hd & HF).
  assert (Hprev : forall j prev, Z.of_nat j < num -> (inputDim :: sizes) !! j = Some prev -> 0 <= prev).
  { intros [|j] prev Hj Hp; [cbn in Hp; injection Hp as <-; done|]. change (sizes !! j = Some prev) in Hp.
    destruct (HF j) as (size1 & _ & _ & _ & _ & _ & _ & _ & Hs1 & _ & _ & _ & _ & _ & _ & _ & H1 & _); [lia|]. rewrite Hp in Hs1. injection Hs1 as <-. done. }
  assert (HD : dims_ok E num sizes batch inputDim).
  { split; [done|]. split; [done|]. intros j size prev Hj Hs Hp.
    destruct (HF j) as (size1 & prev1 & ? & ? & ? & ? & ? & ? & Hs1 & Hp1 & _ & _ & _ & _ & _ & _ & H1 & H2 & H3 & _ & _ & HH & _); [lia|].
    rewrite Hs in Hs1. injection Hs1 as <-. rewrite Hp in Hp1. injection Hp1 as <-. split; [done|]. split; [done|]. split; [done|].
    intros EH. destruct HH as (_ & _ & HH). by rewrite EH in HH. }
  destruct (net_new_total mode E (m_norm m) num sizes types batch inputDim k l rp sparsity (m_npos m) (m_rng m) (m_seeds m) W) as (nv & En).
  pose proof (network_New_ref E c num batch inputDim sizes types lr k l rp sparsity m HL HD) as HR. rewrite En in HR.
  destruct HR as (n & m' & E1 & (arr & ->) & L & _). eexists _, m'. split; [exact E1|]. intros os Hos HB NF.
  destruct (net_new_shape _ _ _ _ _ _ _ _ _ _ _ _ _ _ _ En) as (cfg & HC & HS & Hnum & _). rewrite <- (Forall2_length _ _ _ HS) in Hnum.
  assert (HA : forall j size prev ty kj lj rj, cfg !! j = Some (size, prev, ty, kj, lj, rj) -> exists sp sp',
    sparsity !! j = Some sp /\ sparsity !! (length cfg + j)%nat = Some sp' /\ ty <> TypeOther /\ (j = length cfg - 1 -> ty = Softmax)%nat /\
    hash_works E kj lj rj (Z.of_nat prev) /\ usable bad fair (rstream (m_rng m)) E size prev ty kj lj rj sp /\ usable bad fair (rstream (m_rng m)) E size prev ty kj lj rj sp').
  { intros j size prev ty kj lj rj H. pose proof (lookup_lt_Some _ _ _ H) as Hj.
    destruct (HC _ _ H) as (size' & prev' & ty' & kj' & lj' & rj' & [= -> -> -> -> -> ->] & Hs & Hp & Ht & Hk & Hl & Hr).
    destruct (HF j) as (size1 & prev1 & ty1 & k1 & l1 & r1 & sp & sp' & Hs1 & Hp1 & Ht1 & Hk1 & Hl1 & Hr1 & Hsp & Hsp' & _ & _ & _ & T1 & T2 & HH & M1 & M2); [lia|].
    simplify_eq. rewrite Nat2Z.id in Hsp'. pose proof (Hprev j _ ltac:(lia) Hp) as Hp0. exists sp, sp'. split; [done|]. split; [done|]. split; [done|].
    split; [intros ->; apply T2; lia|]. split; [rewrite Z2Nat.id by done; by apply fits_works in HH as [? _]|].
    split; by apply HU. }
  eapply (calls_total bad fair (rstream (m_rng m)) E c num batch inputDim sizes types k l rp sparsity cfg); try done.
  - lia.
  - intros j size prev ty kj lj rj H. split; [by eapply cfg_dim|]. destruct (HA _ _ _ _ _ _ _ H) as (sp & sp' & ? & ? & ? & ? & ? & ? & ?). split; [done|]. by exists sp.
  - intros j size prev ty kj lj rj H. split; [by eapply cfg_dim|]. destruct (HA _ _ _ _ _ _ _ H) as (sp & sp' & ? & ? & ? & ? & ? & ? & ?). split; [done|]. by exists sp'.
  - intros j size prev ty kj lj rj H. destruct (HA _ _ _ _ _ _ _ H) as (sp & sp' & ? & ? & ? & ? & ? & ? & ?). exists sp. split; [done|]. by intros _.
  - intros size prev ty kj lj rj H%last_at. destruct (HA _ _ _ _ _ _ _ H) as (sp & sp' & ? & ? & ? & HT & _). by apply HT.
  - intros _ j size Hj Hs. destruct (HF j Hj) as (size1 & ? & ? & ? & ? & ? & ? & ? & Hs1 & _ & _ & _ & _ & _ & _ & _ & H1 & _).
    rewrite Hs in Hs1. by injection Hs1 as <-.
  - by eapply net_new_stream.
Qed.
Lemma safe_calls E c num sizes types batch lr inputDim k l rp sparsity m :
  e_LoadWeight E = false -> well_formed E num sizes types batch inputDim k l rp sparsity ->
  exists n m', network_New E c num sizes types batch lr inputDim k l rp sparsity m = Ok (n, m') /\
    forall os, Forall (call_fits num sizes types batch inputDim) os -> exists m'', call_ops E c n os m' = Ok (n, m'').
Proof.
  intros HL W. destruct (calls_with False False (mode_fits E) E c num sizes types batch lr inputDim k l rp sparsity m HL W) as (n & m' & E1 & H).
  { intros. by apply fits_usable. }
  exists n, m'. split; [exact E1|]. intros os Hos. by apply H.
Qed.
Lemma sampling_calls E c num sizes types batch lr inputDim k l rp sparsity m :
  e_LoadWeight E = false -> well_formed_sampling E num sizes types batch inputDim k l rp sparsity ->
  exists n m', network_New E c num sizes types batch lr inputDim k l rp sparsity m = Ok (n, m') /\
    forall os, Forall (call_fits num sizes types batch inputDim) os -> Forall (call_room num sizes types sparsity) os ->
    call_ops E c n os m' = Panic PFuel \/ exists m'', call_ops E c n os m' = Ok (n, m'').
Proof.
  intros HL W. destruct (calls_with True False (mode_samples E) E c num sizes types batch lr inputDim k l rp sparsity m HL W) as (n & m' & E1 & H).
  { intros. by apply samples_usable. }
  exists n, m'. split; [exact E1|]. intros os Hos HB. specialize (H os Hos (fun _ => HB)).
  destruct (call_ops E c n os m') as [x|p]; [right; apply H; by right|].
  destruct p; try (right; apply H; by right). by left.
Qed.
Lemma covered_calls E c num sizes types batch lr inputDim k l rp sparsity m :
  e_LoadWeight E = false -> well_formed_covered (rstream (m_rng m)) E num sizes types batch inputDim k l rp sparsity ->
  exists n m', network_New E c num sizes types batch lr inputDim k l rp sparsity m = Ok (n, m') /\
    forall os, Forall (call_fits num sizes types batch inputDim) os -> Forall (call_room num sizes types sparsity) os ->
    exists m'', call_ops E c n os m' = Ok (n, m'').
Proof.
  intros HL W. destruct (calls_with True True (mode_covers (rstream (m_rng m)) E) E c num sizes types batch lr inputDim k l rp sparsity m HL W) as (n & m' & E1 & H).
  { intros. by apply covers_usable. }
  exists n, m'. split; [exact E1|]. intros os Hos HB. apply H; [done|done|]. intros _. by left.
Qed.

Lemma dense_calls E c num sizes types batch lr inputDim k l rp sparsity m n m' :
  e_LoadWeight E = false -> dims_ok E num sizes batch inputDim -> all_dense num types sparsity ->
  network_New E c num sizes types batch lr inputDim k l rp sparsity m = Ok (n, m') ->
  forall os, Forall (call_fits num sizes types batch inputDim) os -> exists m'', call_ops E c n os m' = Ok (n, m'').
Proof.
  intros HL HD [Hn HF] HN os Hos.
  destruct (refines_Ok _ _ _ _ _ (network_New_ref E c num batch inputDim sizes types lr k l rp sparsity m HL HD) HN) as (nv & En & (arr & ->) & L & _).
  destruct (net_new_shape _ _ _ _ _ _ _ _ _ _ _ _ _ _ _ En) as (cfg & HC & HS & Hnum & _). rewrite <- (Forall2_length _ _ _ HS) in Hnum.
  assert (HA : forall j size prev ty kj lj rj, cfg !! j = Some (size, prev, ty, kj, lj, rj) -> exists sp sp',
    sparsity !! j = Some sp /\ sparsity !! (length cfg + j)%nat = Some sp' /\ ty <> TypeOther /\ (j = length cfg - 1 -> ty = Softmax)%nat /\
    feqb sp fone = true /\ feqb sp' fone = true).
  { intros j size prev ty kj lj rj H. pose proof (lookup_lt_Some _ _ _ H) as Hj.
    destruct (HC _ _ H) as (size' & prev' & ty' & kj' & lj' & rj' & [= -> -> -> -> -> ->] & Hs & Hp & Ht & _).
    destruct (HF j) as (ty1 & sp & sp' & Ht1 & T1 & T2 & Hsp & Hsp' & ? & ?); [lia|]. simplify_eq. rewrite Nat2Z.id in Hsp'.
    exists sp, sp'. split_and!; try done. intros ->. apply T2. lia. }
  eapply (calls_total False False (rstream (nv_rng nv)) E c num batch inputDim sizes types k l rp sparsity cfg); try done.
  - lia.
  - intros j size prev ty kj lj rj H. split; [by eapply cfg_dim|]. destruct (HA _ _ _ _ _ _ _ H) as (sp & sp' & ? & ? & ? & ? & ? & ?). split; [done|]. exists sp. split; [done|by left].
  - intros j size prev ty kj lj rj H. split; [by eapply cfg_dim|]. destruct (HA _ _ _ _ _ _ _ H) as (sp & sp' & ? & ? & ? & ? & ? & ?). split; [done|]. exists sp'. split; [done|by left].
  - intros j size prev ty kj lj rj H. destruct (HA _ _ _ _ _ _ _ H) as (sp & sp' & ? & ? & ? & ? & He & ?). exists sp. split; [done|]. intros Hl. by rewrite (feqb_fltb _ _ He) in Hl.
  - intros size prev ty kj lj rj H%last_at. destruct (HA _ _ _ _ _ _ _ H) as (sp & sp' & ? & ? & ? & HT & _). by apply HT.
Qed.

(** * Asking for more active nodes than there are *)
Lemma forward_asks E num sps nv i feats label off r (j : nat) : ref_forward E num sps nv i feats label off = Ok r -> (j < length (nv_layers nv))%nat ->
  exists lv sp anpl g q, nv_layers nv !! j = Some lv /\ sget sps (off + Z.of_nat j) = Ok sp /\ ref_query E lv anpl (Z.of_nat j) i label sp g = Ok q.
Proof.
  unfold ref_forward. intros H Hj. binv H as a1 E1. binv H as a2 E2.
  replace (Z.of_nat (length (nv_layers nv))) with (Z.of_nat j + (Z.of_nat (length (nv_layers nv)) - Z.of_nat j)) in H by lia. rewrite seqZ_app, foldM_app in H by lia.
  destruct (foldM _ _ (seqZ 0 (Z.of_nat j))) as [[[anpl ins] nv1]|] eqn:Ej; [|discriminate H].
  rewrite seqZ_cons in H by lia. cbn [foldM] in H. rewrite Z.add_0_l in H. destruct (ref_forward_layer E i label sps off (anpl, ins, nv1) (Z.of_nat j)) as [st|] eqn:Es; [|discriminate H].
  assert (HK : forall q, (j <= q)%nat -> nv_layers nv1 !! q = nv_layers nv !! q).
  { eapply (foldM_Ok_prefix (fun pre (st : list (list Pair) * list Z * NetView) => (length pre <= j)%nat /\ forall q, (j <= q)%nat -> nv_layers st.2 !! q = nv_layers nv !! q)) in Ej.
    - apply Ej.
    - split; [cbn; lia|done].
    - intros pre x [[a b] nv2] [[a' b'] nv3] [_ Hq] Hp HF. apply seqZ_at in Hp as [Hl ->]. split; [rewrite app_length; cbn; lia|]. cbn [snd] in *.
      unfold ref_forward_layer in HF. binv HF as lv X1. binv HF as sp X2. binv HF as [[[x1 x2] x3] x4] X3. injection HF as _ _ <-.
      intros q Hjq. cbn [nv_layers]. rewrite list_lookup_insert_ne by lia. by apply Hq. }
  unfold ref_forward_layer in Es. binv Es as lv X1. binv Es as sp X2. binv Es as q X3. apply sget_Ok in X1 as [_ X1]. rewrite Nat2Z.id, HK in X1 by lia. by exists lv, sp, anpl, (nv_rng nv1), q.
Qed.
Lemma overfull_calls E c num sizes types batch lr inputDim k l rp sparsity m n m' os n' m'' (j : nat) size sp ex exs iter rehash rebuild :
  e_LoadWeight E = false -> dims_ok E num sizes batch inputDim ->
  network_New E c num sizes types batch lr inputDim k l rp sparsity m = Ok (n, m') -> call_ops E c n os m' = Ok (n', m'') ->
  e_Mode E = LayerMode2 -> Z.of_nat j < num -> types !! j = Some Softmax -> sizes !! j = Some size -> sparsity !! j = Some sp ->
  feqb sp fone = false -> size < int_floor (fmul (f_of_Z size) sp) -> labels_fit num sizes types ex ->
  forall r, call_op E c n' (OpTrain (ex :: exs) iter rehash rebuild) m'' <> Ok r.
Proof.
  intros HL HD HN HO Hm Hj Ht Hs Hsp Hf Hover [ND HF] [n2 m2] HC.
  destruct (new_calls_shape _ _ _ _ _ _ _ _ _ _ _ _ _ _ _ _ _ _ HL HD HN HO) as (-> & Hnsp & _ & Hnum & nv & cfg & L & HCf & HS & Hlen & _).
  destruct (refines_Ok _ _ _ _ _ (live_call E m'' c n nv (OpTrain (ex :: exs) iter rehash rebuild) L) HC) as (nv' & HR & _).
  cbn [ref_call] in HR. binv HR as [ins nv2] HP. clear HR. unfold ref_process in HP. binv HP as z E0. binv HP as nv1 E1. cbn zeta in HP. binv HP as [ins1 nv3] E2. clear HP.
  rewrite Hnum, Hnsp in *.
  assert (S1 : all_shape E (Z.to_nat batch) cfg (nv_layers nv1)).
  { destruct (_ =? _); [|by injection E1 as <-]. destruct (reshuffle_total E (Z.to_nat batch) cfg nv (seqZ 1 (num - 1)) HS) as (nv4 & E4 & S4).
    - rewrite Forall_forall. intros x Hx%elem_of_seqZ. rewrite (Forall2_length _ _ _ HS). lia.
    - rewrite E4 in E1. by injection E1 as <-. }
  unfold ref_train_all in E2. unfold indexed in E2. cbn [length] in E2. rewrite seqZ_cons in E2 by lia. cbn [zip foldM] in E2.
  match type of E2 with context [ref_train_one ?a1 ?a2 ?a3 ?a4 ?a5 ?a6] => destruct (ref_train_one a1 a2 a3 a4 a5 a6) as [[x nv5]|] eqn:E3; [|discriminate E2] end.
  clear E2. unfold ref_train_one in E3. binv E3 as [[anpl ins2] nv6] E4. clear E3.
  destruct (forward_asks _ _ _ _ _ _ _ _ _ j E4) as (lv & sp1 & anpl1 & g & q & Hlv & Hsp1 & HQ); [rewrite <- (Forall2_length _ _ _ S1), (Forall2_length _ _ _ HS); lia|].
  apply sget_Ok in Hsp1 as [_ Hsp1]. rewrite Z.add_0_l, Nat2Z.id, Hsp in Hsp1. injection Hsp1 as <-.
  destruct (Forall2_lookup_r _ _ _ _ _ S1 Hlv) as ([[[[[size1 prev] ty] kj] lj] rj] & Hc & SL).
  destruct (HCf _ _ Hc) as (size2 & prev2 & ty2 & kj' & lj' & rj' & [= -> -> -> -> -> ->] & Hs2 & _ & Ht2 & _). rewrite Hs in Hs2. injection Hs2 as <-. rewrite Ht in Ht2. injection Ht2 as <-.
  destruct HD as (_ & _ & HD).
  assert (H0 : 0 <= size).
  { destruct (lookup_lt_is_Some_2 (inputDim :: sizes) j) as [pv Hpv]; [cbn; apply lookup_lt_Some in Hs; lia|]. by destruct (HD j size pv Hj Hs Hpv) as (? & _). }
  destruct q as [[[q1 q2] q3] q4]. unfold ref_query in HQ. binv HQ as cur X1. binv HQ as [[sel in_] g'] X2. clear HQ. unfold ref_select in X2.
  rewrite Hf, Hm in X2. pose proof (ss_type _ _ _ _ _ _ _ _ _ SL) as Hty. pose proof (ss_size _ _ _ _ _ _ _ _ _ SL) as Hsz. rewrite Hty, Hsz in X2. cbn [is_softmax] in X2.
  rewrite Z2Nat.id in X2 by done. binv X2 as r X3. exact (select_mode2_never _ _ _ _ _ H0 ND (HF j size Hj Ht Hs) Hover _ X3).
Qed.
