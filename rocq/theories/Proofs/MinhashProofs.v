(** Proofs about densified_minhash. *)
From Verif.Model Require Import Minhash.
From Verif.Spec Require Import HashSpec.
From Verif.Proofs Require Import BaseProofs FloatOrder HeapProofs DensifyProofs WtaProofs DwtaProofs FloatReal.
From Coq Require Import Lia ZifyBool ZifyNat.

(* ---------------- GetMap ---------------- *)

Lemma mn_New_fields log2 mh H rp g m g' :
  mn_New log2 mh H rp g = (m, g') ->
  dh_numHashes (mn_d m) = H /\ dh_rangePow (mn_d m) = rp /\ mn_mh m = mh /\
  dh_logNumHash (mn_d m) = int_of_f (log2 (f_of_Z H)).
Proof.
  unfold mn_New, dh_New.
  destruct (positiveOddRandomInt g) as [r0 g0]. destruct (positiveOddRandomInt g0) as [r1 g1].
  destruct (positiveOddRandomInt g1) as [r2 g2]. by intros [= <- <-].
Qed.

Lemma mn_seeds log2 mh H rp g m g' :
  mn_New log2 mh H rp g = (m, g') ->
  Forall (fun r => 0 < r <= maxInt64 /\ Z.odd r = true)
    [fst (dh_randHash (mn_d m)); snd (dh_randHash (mn_d m)); dh_randa (mn_d m)].
Proof.
  unfold mn_New, dh_New.
  destruct (positiveOddRandomInt g) as [r0 g0] eqn:E0. destruct (positiveOddRandomInt g0) as [r1 g1] eqn:E1.
  destruct (positiveOddRandomInt g1) as [r2 g2] eqn:E2. intros [= <- <-]. cbn.
  apply positiveOddRandomInt_spec in E0, E1, E2. constructor; [done|]. constructor; [done|]. constructor; [done|]. constructor.
Qed.

Lemma mn_map log2 mh H rp g m g' n :
  1 <= H <= 2^53 -> 0 <= rp <= 52 -> 0 <= n <= 2^55 ->
  mn_New log2 mh H rp g = (m, g') ->
  exists ids, mn_GetMap m n = Ok ids /\ Z.of_nat (length ids) = n /\
    (forall i, 0 <= i < n -> ids !! Z.to_nat i = Some ((mh i mod 2^rp) / ((2^rp + H - 1) / H))) /\
    Forall (fun b => 0 <= b < H) ids.
Proof.
  intros HH Hrp Hn HN. apply mn_New_fields in HN as (HfH & Hfr & Hfm & _).
  assert (HR : 1 <= 2^rp <= 2^52).
  { split; [pose proof (Z.pow_pos_nonneg 2 rp); lia|]. apply Z.pow_le_mono_r; lia. }
  set (R := 2^rp) in *. set (S := (R + H - 1) / H).
  assert (HS : R <= H * S /\ 1 <= S <= 2^53).
  { unfold S. pose proof (Z.div_mod (R + H - 1) H ltac:(lia)) as HD.
    pose proof (Z.mod_pos_bound (R + H - 1) H ltac:(lia)). split; [lia|]. split; [nia|].
    apply Z.div_le_upper_bound; nia. }
  assert (HM : mn_GetMap m n = mapM_res (fun i => Ok ((mh i mod R) / S)) (seqZ 0 n)).
  { unfold mn_GetMap, make_slice. replace (n <? 0) with false by lia. cbn [mbind res_bind].
    unfold mn_binSize, int_pow2. rewrite Hfr, HfH. replace (rp <? 0) with false by lia.
    replace (64 <=? rp) with false by lia. cbn [mbind res_bind].
    rewrite wrap64_small by (unfold in_int64, minInt64, maxInt64; fold R; lia).
    fold R. rewrite int_ceil_div by lia. fold S.
    rewrite replicate_length, Z2Nat.id by lia.
    apply mapM_res_ext. intros i Hi%elem_of_seqZ. replace (2^55 <=? i) with false by lia.
    unfold shl64. replace (rp <? 0) with false by lia. replace (64 <=? rp) with false by lia. cbn [mbind res_bind].
    rewrite Z.shiftl_mul_pow2, Z.mul_1_l by lia. fold R. rewrite (u64_small R) by lia.
    rewrite (u64_small (R - 1)) by lia. rewrite Hfm.
    assert (HL : Z.land (u64 (mh i)) (R - 1) = mh i mod R).
    { replace (R - 1) with (Z.ones rp) by (rewrite Z.ones_equiv; unfold R; lia).
      rewrite Z.land_ones by lia. apply u64_mod. lia. }
    rewrite HL. pose proof (Z.mod_pos_bound (mh i) R ltac:(lia)).
    rewrite int_floor_div by lia. done. }
  destruct (mapM_res_total (fun i => Ok ((mh i mod R) / S)) (seqZ 0 n)) as [ids Hids]; [eauto|].
  exists ids. rewrite HM. split; [done|].
  assert (HL : length ids = Z.to_nat n).
  { apply mapM_res_length in Hids. by rewrite Hids, seqZ_length. }
  split; [lia|].
  assert (HI : forall i, 0 <= i < n -> ids !! Z.to_nat i = Some ((mh i mod R) / S)).
  { intros i Hi. destruct (mapM_res_lookup _ _ _ (Z.to_nat i) i Hids) as (y & Hy & [= <-]); [|done].
    apply lookup_seqZ. lia. }
  split; [done|].
  apply Forall_lookup. intros i b Hb. pose proof (lookup_lt_Some _ _ _ Hb).
  pose proof (HI (Z.of_nat i) ltac:(lia)) as HI'. rewrite Nat2Z.id, Hb in HI'. injection HI' as ->.
  pose proof (Z.mod_pos_bound (mh (Z.of_nat i)) R ltac:(lia)).
  split; [apply Z.div_pos; lia|]. apply Z.div_lt_upper_bound; lia.
Qed.

(* ---------------- wide layers ---------------- *)

Lemma int_floor_div0 x s : int_floor (fdiv x (S754_zero s)) = minInt64.
Proof. destruct x as [?|?| |? ? ?]; reflexivity. Qed.

Lemma mn_map_wide log2 mh H rp g m g' n :
  1 <= H <= 2^53 -> 64 <= rp -> 0 <= n <= 2^55 ->
  mn_New log2 mh H rp g = (m, g') ->
  mn_GetMap m n = Ok (replicate (Z.to_nat n) minInt64).
Proof.
  intros HH Hrp Hn HN. apply mn_New_fields in HN as (HfH & Hfr & Hfm & _).
  unfold mn_GetMap, make_slice. replace (n <? 0) with false by lia. cbn [mbind res_bind].
  unfold mn_binSize, int_pow2. rewrite Hfr, HfH. replace (rp <? 0) with false by lia.
  replace (64 <=? rp) with true by lia. cbn [mbind res_bind].
  rewrite int_ceil_div by lia. rewrite (Z.div_small (0 + H - 1)) by lia.
  rewrite replicate_length, Z2Nat.id by lia.
  rewrite (mapM_res_ext _ (fun _ => Ok minInt64)).
  2:{ intros i Hi%elem_of_seqZ. replace (2^55 <=? i) with false by lia.
      unfold shl64. replace (rp <? 0) with false by lia. replace (64 <=? rp) with true by lia.
      cbn [mbind res_bind]. f_equal. apply int_floor_div0. }
  rewrite <- (seqZ_length 0 n). induction (seqZ 0 n) as [|x xs IH]; [done|].
  cbn [mapM_res length replicate]. by rewrite IH.
Qed.

Lemma mn_GetHash_bad_bins m indices data binIds :
  0 <= dh_numHashes (mn_d m) -> data <> [] -> (length data <= length indices)%nat ->
  Forall (fun b => b < 0) binIds ->
  exists p, mn_GetHash m indices data binIds = Panic p.
Proof.
  intros HH Hd Hl Hb. unfold mn_GetHash, make_slice. replace (_ <? 0) with false by lia. cbn [mbind res_bind].
  destruct data as [|v data]; [done|]. cbn [length] in *.
  rewrite (seqZ_cons 0) by lia. cbn [foldM].
  destruct indices as [|ix indices]; [simpl in Hl; lia|]. cbn [sget]. change (sget (ix :: indices) 0) with (Ok ix).
  cbn [mbind res_bind]. unfold mn_put.
  destruct (sget binIds ix) as [b|p] eqn:E; cbn [mbind res_bind]; [|eauto].
  apply sget_Ok in E as [_ E]. eapply Forall_lookup_1 in Hb; [|done].
  rewrite (proj1 (sget_panic _ b)) by lia. cbn [mbind res_bind]. eauto.
Qed.

Lemma mn_wide_refuted : forall log2 mh H rp g m g' n,
  1 <= H <= 2^53 -> 64 <= rp -> 0 <= n <= 2^55 ->
  mn_New log2 mh H rp g = (m, g') ->
  exists ids, mn_GetMap m n = Ok ids /\ ids = replicate (Z.to_nat n) minInt64 /\
    forall indices data, data <> [] -> length indices = length data ->
      exists p, mn_GetHash m indices data ids = Panic p.
Proof.
  intros log2 mh H rp g m g' n HH Hrp Hn HN. exists (replicate (Z.to_nat n) minInt64).
  split; [by eapply mn_map_wide|]. split; [done|]. intros indices data Hd Hl.
  apply mn_New_fields in HN as (HfH & _).
  apply mn_GetHash_bad_bins; [lia|done|lia|].
  apply Forall_replicate. unfold minInt64. lia.
Qed.

(** Hashes wider than 52 bits do not survive the conversion to float64. *)
Lemma mn_round_refuted :
  exists log2 mh H rp g m g' ids, H = 1 /\ rp = 60 /\ mn_New log2 mh H rp g = (m, g') /\
    mn_GetMap m 1 = Ok ids /\ ids = [1].
Proof.
  exists (fun _ => fone), (fun _ => 2^60 - 1), 1, 60, {| rstream := fun _ => 0; rpos := 0 |}.
  eexists _, _, _. split; [done|]. split; [done|]. split; [vm_compute; reflexivity|].
  split; [vm_compute; reflexivity|reflexivity].
Qed.

(* ---------------- GetHash ---------------- *)

(** bin [b] holds the largest listed index, or MinInt64 *)
Definition bin_inv (binIds : list Z) (H : Z) (ixs : list Z) (hashes : list Z) : Prop :=
  Z.of_nat (length hashes) = H /\
  forall b, 0 <= b < H ->
    (exists mx, hashes !! Z.to_nat b = Some mx /\ mx ∈ ixs /\ binIds !! Z.to_nat mx = Some b /\
       forall ix, ix ∈ ixs -> binIds !! Z.to_nat ix = Some b -> ix <= mx) \/
    (hashes !! Z.to_nat b = Some minInt64 /\ forall ix, ix ∈ ixs -> binIds !! Z.to_nat ix = Some b -> False).

Definition good_ix (binIds : list Z) (H ix : Z) : Prop :=
  0 <= ix /\ exists b, binIds !! Z.to_nat ix = Some b /\ 0 <= b < H.

Lemma mn_put_inv binIds H ixs hashes ix :
  Forall (good_ix binIds H) ixs ->
  bin_inv binIds H ixs hashes -> good_ix binIds H ix ->
  exists hashes', mn_put binIds hashes ix = Ok hashes' /\ bin_inv binIds H (ixs ++ [ix]) hashes'.
Proof.
  intros Hgood [Hlen HI] (H0 & b & Hb & Hbr). unfold mn_put.
  rewrite (proj2 (sget_Ok binIds ix b)) by done. cbn [mbind res_bind].
  destruct (sget_total hashes b) as (h & Hh & Hh'); [lia|]. rewrite Hh. cbn [mbind res_bind].
  assert (Hcase : (h < ix /\ forall ix', ix' ∈ ixs -> binIds !! Z.to_nat ix' = Some b -> ix' <= ix) \/
                  (ix <= h /\ h ∈ ixs /\ binIds !! Z.to_nat h = Some b /\ forall ix', ix' ∈ ixs -> binIds !! Z.to_nat ix' = Some b -> ix' <= h)).
  { destruct (HI b Hbr) as [(mx & Hmx & Hin & Hbm & Hmax)|(Hmx & Hnone)]; rewrite Hh' in Hmx; injection Hmx as ->.
    - destruct (Z.lt_ge_cases mx ix); [left|right; done]. split; [done|].
      intros ix' Hi Hbi. specialize (Hmax ix' Hi Hbi). lia.
    - left. split; [unfold minInt64; lia|]. intros ix' Hi Hbi. destruct (Hnone ix' Hi Hbi). }
  destruct Hcase as [[Hlt Hmax]|(Hge & Hin & Hbh & Hmax)].
  - replace (h <? ix) with true by lia. rewrite sset_total by lia.
    eexists. split; [done|]. split; [by rewrite insert_length|].
    intros b' Hb'. destruct (decide (b' = b)) as [->|Hne].
    + left. exists ix. rewrite list_lookup_insert by lia. split; [done|]. split; [apply elem_of_app; right; by left|].
      split; [done|]. intros ix' [Hi|Hi%elem_of_list_singleton]%elem_of_app Hbi; [by apply Hmax|subst; lia].
    + rewrite list_lookup_insert_ne by lia.
      destruct (HI b' Hb') as [(mx & Hmx & Hin & Hbm & Hmax')|(Hmx & Hnone)]; [left|right].
      * exists mx. split; [done|]. split; [apply elem_of_app; by left|]. split; [done|].
        intros ix' [Hi|Hi%elem_of_list_singleton]%elem_of_app Hbi; [by apply Hmax'|subst]. congruence.
      * split; [done|]. intros ix' [Hi|Hi%elem_of_list_singleton]%elem_of_app Hbi; [by eapply Hnone|subst]. congruence.
  - replace (h <? ix) with false by lia. eexists. split; [done|]. split; [done|].
    intros b' Hb'. destruct (decide (b' = b)) as [->|Hne].
    + left. exists h. split; [done|]. split; [apply elem_of_app; by left|]. split; [done|].
      intros ix' [Hi|Hi%elem_of_list_singleton]%elem_of_app Hbi; [by apply Hmax|subst; lia].
    + destruct (HI b' Hb') as [(mx & Hmx & Hin' & Hbm & Hmax')|(Hmx & Hnone)]; [left|right].
      * exists mx. split; [done|]. split; [apply elem_of_app; by left|]. split; [done|].
        intros ix' [Hi|Hi%elem_of_list_singleton]%elem_of_app Hbi; [by apply Hmax'|subst]. congruence.
      * split; [done|]. intros ix' [Hi|Hi%elem_of_list_singleton]%elem_of_app Hbi; [by eapply Hnone|subst]. congruence.
Qed.

(** The part of GetHash before the densification, on a list of indices. *)
Definition mn_fill (H : Z) (binIds ixs : list Z) : res (list Z) :=
  hashes ← make_slice minInt64 H; foldM (mn_put binIds) hashes ixs.

Lemma mn_fill_ok H binIds ixs :
  0 <= H -> Forall (good_ix binIds H) ixs ->
  exists hashes, mn_fill H binIds ixs = Ok hashes /\ bin_inv binIds H ixs hashes.
Proof.
  intros HH Hgood. unfold mn_fill, make_slice. replace (H <? 0) with false by lia. cbn [mbind res_bind].
  apply (foldM_inv_prefix (fun pre s => bin_inv binIds H pre s)).
  - split; [rewrite replicate_length; lia|]. intros b Hb. right.
    rewrite lookup_replicate_2 by lia. split; [done|]. intros ix Hix. by apply elem_of_nil in Hix.
  - intros pre x s HI [post Hpost]. rewrite Hpost in Hgood.
    apply Forall_app in Hgood as [Hgood _]. apply Forall_app in Hgood as [Hg1 Hg2].
    apply mn_put_inv; [done|done|]. inversion Hg2; assumption.
Qed.

Lemma seqZ_one m : seqZ m 1 = [m].
Proof. unfold seqZ. simpl. f_equal. Qed.

Lemma foldM_indices {St} (f : St -> Z -> res St) (xs : list Z) (s : St) (n : nat) :
  (n <= length xs)%nat ->
  foldM (fun s i => x ← sget xs i; f s x) s (seqZ 0 (Z.of_nat n)) = foldM f s (take n xs).
Proof.
  revert s. induction n as [|n IH]; intros s Hn; [by rewrite take_0|].
  replace (Z.of_nat (S n)) with (Z.of_nat n + 1) by lia.
  rewrite seqZ_app by lia. rewrite foldM_app, IH by lia.
  destruct (lookup_lt_is_Some_2 xs n) as [x Hx]; [lia|].
  rewrite (take_S_r _ _ _ Hx), foldM_app. destruct (foldM f s (take n xs)) as [s'|]; [|done].
  rewrite Z.add_0_l. rewrite seqZ_one.
  cbn [foldM]. by rewrite (sget_nat _ _ _ Hx).
Qed.

Lemma mn_GetHash_fill m indices data binIds :
  (length data <= length indices)%nat ->
  mn_GetHash m indices data binIds =
  (hashes ← mn_fill (dh_numHashes (mn_d m)) binIds (take (length data) indices); mn_densify m hashes).
Proof.
  intros Hl. unfold mn_GetHash, mn_fill. destruct (make_slice minInt64 (dh_numHashes (mn_d m))); [|done].
  cbn [mbind res_bind]. by rewrite foldM_indices.
Qed.

Lemma mn_hash_spec m indices data binIds :
  let H := dh_numHashes (mn_d m) in
  0 <= H -> 0 <= dh_logNumHash (mn_d m) <= 31 -> (length data <= length indices)%nat ->
  (forall ix, ix ∈ take (length data) indices -> 0 <= ix /\ exists b, binIds !! Z.to_nat ix = Some b /\ 0 <= b < H) ->
  exists hs, mn_GetHash m indices data binIds = Ok hs /\ Z.of_nat (length hs) = H /\
    let listed b ix := listed_in indices (length data) binIds b ix in
    let empty b := forall ix, ~ listed b ix in
    forall b, 0 <= b < H ->
      (~ empty b -> exists mx, hs !! Z.to_nat b = Some mx /\ listed b mx /\ forall ix, listed b ix -> ix <= mx) /\
      (empty b ->
         (exists b', 0 <= b' < H /\ borrows_from (mn_d m) empty b b' /\ hs !! Z.to_nat b = hs !! Z.to_nat b') \/
         (borrows_nothing (mn_d m) empty b /\
            (hs !! Z.to_nat b = Some minInt64 \/
             exists b', 0 <= b' < H /\ probes (mn_d m) b 101 b' /\ ~ empty b' /\
               hs !! Z.to_nat b = hs !! Z.to_nat b'))).
Proof.
  cbv zeta. intros HH Hlog Hl Hgood.
  rewrite mn_GetHash_fill by done. set (H := dh_numHashes (mn_d m)) in *.
  set (ixs := take (length data) indices) in *.
  destruct (mn_fill_ok H binIds ixs HH) as (hashes & -> & Hlen & HI).
  { apply Forall_forall. intros ix Hix. by apply Hgood. }
  cbn [mbind res_bind].
  destruct (densify_spec (mn_d m) (fun h => h =? minInt64) (fun h => h) hashes) as (hs & HE & Hlhs & Hspec); [done|done|].
  exists hs. split; [done|]. split; [lia|].
  set (empty := fun b => forall ix, ~ listed_in indices (length data) binIds b ix).
  assert (Hemp : forall b, 0 <= b < H -> (empty b <-> empty_at (fun h => h =? minInt64) hashes b)).
  { intros b Hb. unfold empty, empty_at. destruct (HI b Hb) as [(mx & Hmx & Hin & Hbm & Hmax)|(Hmx & Hnone)].
    - split; [intros He; exfalso; by apply (He mx)|]. intros (it & Hit & He). rewrite Hmx in Hit. injection Hit as <-.
      apply Hgood in Hin as [Hin _]. unfold minInt64 in He. lia.
    - split; [|intros _ ix [Hi Hbi]; by apply (Hnone ix)]. intros _. exists minInt64. split; [done|]. by rewrite Z.eqb_refl. }
  assert (Hempp : forall b c ix, probes (mn_d m) b c ix -> (empty ix <-> empty_at (fun h => h =? minInt64) hashes ix) \/ ~ 0 <= ix < H).
  { intros b c ix _. destruct (decide (0 <= ix < H)); [left; by apply Hemp|by right]. }
  assert (Hpr : forall b c ix, 0 <= b < H -> probes (mn_d m) b c ix -> 0 <= ix < H).
  { intros b c ix Hb Hp. destruct (probe_index_ok (mn_d m) b c) as (ix' & _ & Hp' & Hr); [done|lia|].
    by rewrite (probes_functional _ _ _ _ _ Hp Hp'). }
  assert (Hkeep : forall b mx, 0 <= b < H -> hashes !! Z.to_nat b = Some mx -> (mx =? minInt64) = false -> hs !! Z.to_nat b = Some mx).
  { intros b mx Hb Hmx Hne. destruct (Hspec _ _ Hmx) as (o & Ho & [[_ ->]|[[He _]|[He _]]]); [done|congruence|congruence]. }
  intros b Hb. split.
  - intros Hne. destruct (HI b Hb) as [(mx & Hmx & Hin & Hbm & Hmax)|(Hmx & Hnone)].
    + exists mx. split; [|split].
      * apply Hkeep; [done|done|]. apply Hgood in Hin as [Hin _]. unfold minInt64. lia.
      * done.
      * intros ix [Hi Hbi]. by apply Hmax.
    + exfalso. apply Hne. intros ix [Hi Hbi]. by apply (Hnone ix).
  - intros He. destruct (proj1 (Hemp b Hb) He) as (it & Hit & Hie).
    destruct (Hspec _ _ Hit) as (o & Ho & Hcase). rewrite Z2Nat.id in Hcase by lia.
    destruct Hcase as [[Hc _]|[(_ & ix & Hixr & Hbor & Hox & Hoe)|(_ & Hbor & ix & x & Hixr & Hp & Hx & ->)]].
    + congruence.
    + left. exists ix. split; [done|]. split.
      * destruct Hbor as (c & Hc & Hp & Hne & Hb'). exists c. split; [done|]. split; [done|]. split.
        -- intros Hx. apply Hne, Hemp; done.
        -- intros c' Hc'. destruct (Hb' c' Hc') as (ix' & Hp' & He'). exists ix'. split; [done|].
           apply Hemp; [exact (Hpr _ _ _ Hb Hp')|done].
      * rewrite Ho. symmetry. by apply Hkeep.
    + right. split.
      * intros c Hc. destruct (Hbor c Hc) as (ix' & Hp' & He'). exists ix'. split; [done|].
        apply Hemp; [exact (Hpr _ _ _ Hb Hp')|done].
      * destruct (Z.eqb_spec x minInt64) as [->|Hne]; [by left|right].
        exists ix. split; [done|]. split; [done|]. split.
        -- intros Hx'. apply (Hemp ix Hixr) in Hx' as (it' & Hit' & He'). rewrite Hx in Hit'. injection Hit' as <-. lia.
        -- rewrite Ho. symmetry. apply Hkeep; [done|done|]. lia.
Qed.

(* ---------------- the heap of GetHashEasy ---------------- *)

Definition q_ok (q : QPair) : Prop := is_nan (q_value q) = false.

Lemma q_order : order_ok q_less q_ok.
Proof.
  split.
  - intros x y Hx Hy H. unfold le, q_less, fgtb in *. exact (fltb_asym _ _ H).
  - intros x y z Hx Hy Hz H1 H2. unfold le, q_less, fgtb in *. exact (fltb_false_trans _ (q_value y) _ Hy H1 H2 Hx Hz).
Qed.

(** entries (i, vals[i]) as queue elements *)
Definition entries_of (vals : list float64) : list QPair := map (fun '(i, v) => mkQ i v) (indexed vals).

Lemma indexed_snoc {A} (xs : list A) x : indexed (xs ++ [x]) = indexed xs ++ [(Z.of_nat (length xs), x)].
Proof.
  apply list_eq. intros i. apply option_eq. intros [j y]. rewrite indexed_lookup.
  destruct (Nat.lt_trichotomy i (length xs)) as [Hi|[Hi|Hi]].
  - rewrite !lookup_app_l by (rewrite ?indexed_length; lia). by rewrite indexed_lookup.
  - subst i. rewrite !lookup_app_r by (rewrite ?indexed_length; lia). rewrite indexed_length, !Nat.sub_diag. simpl.
    split; [intros [-> [= ->]]; done|intros [= -> ->]; done].
  - rewrite !lookup_ge_None_2 by (rewrite app_length, ?indexed_length; simpl; lia). naive_solver.
Qed.

Lemma entries_of_snoc vals v : entries_of (vals ++ [v]) = entries_of vals ++ [mkQ (Z.of_nat (length vals)) v].
Proof. unfold entries_of. rewrite indexed_snoc, map_app. done. Qed.

Lemma entries_of_length vals : length (entries_of vals) = length vals.
Proof. unfold entries_of. by rewrite map_length, indexed_length. Qed.

Lemma elem_of_entries vals q : q ∈ entries_of vals <-> 0 <= q_index q /\ vals !! Z.to_nat (q_index q) = Some (q_value q).
Proof.
  unfold entries_of. split.
  - intros ([i v] & -> & Hi)%elem_of_list_fmap. by apply elem_of_indexed in Hi.
  - intros H. apply elem_of_list_fmap. exists (q_index q, q_value q). split; [by destruct q|]. by apply elem_of_indexed.
Qed.

Lemma entries_of_ok vals : Forall (fun v => is_nan v = false) vals -> Forall q_ok (entries_of vals).
Proof.
  intros H. apply Forall_forall. intros q [_ Hq]%elem_of_entries. by eapply Forall_lookup_1 in H.
Qed.

Lemma heap_fill (first : list float64) :
  foldM (fun pq '(index, value) => sset pq index (mkQ index value)) (replicate (length first) (mkQ 0 fzero)) (indexed first)
  = Ok (entries_of first).
Proof.
  assert (HG : forall (post pre : list float64), 
    foldM (fun pq '(index, value) => sset pq index (mkQ index value))
      (entries_of pre ++ replicate (length post) (mkQ 0 fzero))
      (drop (length pre) (indexed (pre ++ post))) = Ok (entries_of (pre ++ post))).
  { induction post as [|v post IH]; intros pre.
    - rewrite !app_nil_r. rewrite drop_ge by (rewrite indexed_length; lia). done.
    - assert (Hlk : indexed (pre ++ v :: post) !! length pre = Some (Z.of_nat (length pre), v)).
      { apply indexed_lookup. split; [done|]. by apply list_lookup_middle. }
      rewrite (drop_S _ _ _ Hlk). cbn [foldM]. rewrite sset_total.
      2:{ rewrite app_length, entries_of_length, replicate_length. simpl. lia. }
      rewrite Nat2Z.id. specialize (IH (pre ++ [v])). rewrite <- !app_assoc in IH. simpl in IH.
      rewrite app_length in IH. simpl in IH. rewrite Nat.add_1_r in IH.
      rewrite <- IH. f_equal. rewrite entries_of_snoc, <- app_assoc. simpl.
      rewrite insert_app_r_alt by (rewrite entries_of_length; lia). rewrite entries_of_length, Nat.sub_diag. done. }
  specialize (HG first []). done.
Qed.

Lemma heap_dense_ok data spare topK :
  0 <= topK <= Z.of_nat (length (data ++ spare)) ->
  exists pq dropped, mn_heap_dense data spare topK = Ok pq /\
    pq ++ dropped ≡ₚ entries_of (data ++ take (Z.to_nat topK - length data) spare) /\
    Z.of_nat (length pq) = topK /\
    (Forall (fun v => is_nan v = false) (data ++ take (Z.to_nat topK - length data) spare) ->
     forall k d, k ∈ pq -> d ∈ dropped -> fltb (q_value d) (q_value k) = false).
Proof.
  intros Hk. unfold mn_heap_dense, make_slice. replace (topK <? 0) with false by lia. cbn [mbind res_bind].
  unfold slice_to. replace (topK <? 0) with false by lia. replace (Z.of_nat (length (data ++ spare)) <? topK) with false by lia. cbn [orb mbind res_bind].
  set (k := Z.to_nat topK). set (first := take k (data ++ spare)).
  assert (Hlf : length first = k) by (unfold first; rewrite take_length; lia).
  replace (replicate k (mkQ 0 fzero)) with (replicate (length first) (mkQ 0 fzero)) by (by rewrite Hlf). rewrite heap_fill. cbn [mbind res_bind].
  destruct (h_Init_ok q_less q_ok (entries_of first)) as (pq0 & -> & Hp0 & Hh0). cbn [mbind res_bind].
  destruct (Nat.le_gt_cases (length data) k) as [Hge|Hlt].
  { (* nothing to push *)
    rewrite seqZ_nil by (unfold k in *; lia). exists pq0, []. split; [done|].
    assert (Hfd : first = data ++ take (k - length data) spare) by (unfold first; by rewrite take_app_ge).
    rewrite <- Hfd. split; [by rewrite app_nil_r|]. split.
    { rewrite (Permutation_length Hp0), entries_of_length. lia. }
    intros _ q d _ Hd. by apply elem_of_nil in Hd. }
  replace (k - length data)%nat with O by lia. rewrite take_0, app_nil_r.
  assert (Hfd : first = take k data) by (unfold first; rewrite take_app_le by lia; done).
  rewrite Hfd in *.
  set (good := Forall (fun v => is_nan v = false) data).
  match goal with |- context [foldM ?f _ _] => set (F := f) end.
  assert (HG : forall j, (k + j <= length data)%nat ->
    exists pq dropped, foldM F pq0 (seqZ topK (Z.of_nat j)) = Ok pq /\
      pq ++ dropped ≡ₚ entries_of (take (k + j) data) /\ length pq = k /\
      (good -> heap q_less pq /\ forall q d, q ∈ pq -> d ∈ dropped -> le q_less d q)).
  { induction j as [|j IH]; intros Hj.
    - exists pq0, []. rewrite Nat.add_0_r. split; [done|]. split; [by rewrite app_nil_r|]. split.
      { by rewrite (Permutation_length Hp0), entries_of_length. }
      intros Hg. split; [|intros q d _ Hd; by apply elem_of_nil in Hd].
      apply Hh0; [apply q_order|]. apply entries_of_ok. by apply Forall_take.
    - destruct IH as (pq & dropped & HE & Hperm & Hlen & Hord); [lia|].
      replace (Z.of_nat (S j)) with (Z.of_nat j + 1) by lia. rewrite seqZ_app by lia.
      rewrite foldM_app, HE. rewrite seqZ_one. cbn [foldM].
      replace (topK + Z.of_nat j) with (Z.of_nat (k + j)) by lia.
      destruct (lookup_lt_is_Some_2 data (k + j)) as [v Hv]; [lia|].
      unfold F. rewrite (sget_nat _ _ _ Hv). cbn [mbind res_bind].
      set (x := mkQ (Z.of_nat (k + j)) v).
      destruct (h_Push_ok q_less q_ok pq x) as (pq1 & -> & Hp1 & Hh1). cbn [mbind res_bind].
      destruct (h_Pop_ok q_less q_ok pq1) as (r & pq2 & -> & Hp2 & Hh2).
      { intros ->. by apply Permutation_nil_cons in Hp1. }
      cbn [mbind res_bind]. exists pq2, (r :: dropped). split; [done|].
      assert (Hall : pq2 ++ r :: dropped ≡ₚ entries_of (take (k + S j) data)).
      { rewrite Nat.add_succ_r, (take_S_r _ _ _ Hv), entries_of_snoc, take_length.
        replace ((k + j) `min` length data)%nat with (k + j)%nat by lia. fold x.
        rewrite <- Hperm. rewrite <- (Permutation_middle pq2). 
        change (r :: pq2 ++ dropped) with ((r :: pq2) ++ dropped). rewrite Hp2, Hp1.
        rewrite Permutation_app_comm at 1. rewrite <- Permutation_middle.
        rewrite (Permutation_app_comm (pq ++ dropped)). simpl. by rewrite (Permutation_app_comm dropped). }
      split; [done|]. split.
      { pose proof (Permutation_length Hp2) as L2. pose proof (Permutation_length Hp1) as L1. simpl in L1, L2. lia. }
      intros Hg. destruct (Hord Hg) as [Hheap Hle].
      assert (HP : Forall q_ok (pq2 ++ r :: dropped)).
      { rewrite Hall. apply entries_of_ok. by apply Forall_take. }
      assert (HPpq : Forall q_ok (pq ++ dropped)).
      { rewrite Hperm. apply entries_of_ok. by apply Forall_take. }
      assert (HP1 : Forall q_ok (x :: pq)).
      { rewrite <- Hp1, <- Hp2. apply Forall_cons. apply Forall_app in HP as [HP HP']. inversion HP'; done. }
      destruct Hh2 as [Hheap2 Hmin]; [apply q_order|by rewrite Hp1|apply Hh1; [apply q_order|done|done]|].
      split; [done|]. intros q d Hq [->|Hd]%elem_of_cons.
      + apply Hmin. rewrite <- Hp2. by right.
      + assert (Hqx : q ∈ x :: pq) by (rewrite <- Hp1, <- Hp2; by right).
        apply elem_of_cons in Hqx as [->|Hqp]; [|by apply Hle].
        assert (Hrx : r ∈ x :: pq) by (rewrite <- Hp1, <- Hp2; by left).
        apply elem_of_cons in Hrx as [->|Hrp].
        * assert (Hpe : pq2 ≡ₚ pq) by (apply (Permutation_cons_inv (a := x)); by rewrite Hp2, Hp1).
          apply Hle; [by rewrite <- Hpe|done].
        * destruct q_order as [_ Htr]. apply (Htr d r x).
          -- apply Forall_app in HPpq as [_ HPpq]. rewrite Forall_forall in HPpq. by apply HPpq.
          -- rewrite Forall_forall in HP1. apply HP1. by right.
          -- rewrite Forall_forall in HP1. apply HP1. by left.
          -- by apply Hle.
          -- apply Hmin. rewrite Hp1. by left. }
  destruct (HG (length data - k)%nat) as (pq & dropped & HE & Hperm & Hlen & Hord); [lia|].
  replace (Z.of_nat (length data - k)) with (Z.of_nat (length data) - topK) in HE by lia.
  exists pq, dropped. split; [done|]. rewrite take_ge in Hperm by lia. split; [done|]. split; [lia|].
  intros Hg q d Hq Hd. destruct (Hord Hg) as [_ Hle]. by apply (Hle q d).
Qed.

Lemma pop_last_snoc {A} (h : list A) x : h_pop_last (h ++ [x]) = Ok (x, h).
Proof.
  unfold h_pop_last. rewrite app_length. simpl.
  replace (Z.of_nat (length h + 1) - 1) with (Z.of_nat (length h)) by lia.
  rewrite (sget_nat _ _ x) by (by apply list_lookup_middle). cbn [mbind res_bind].
  rewrite Nat.add_sub. by rewrite take_app.
Qed.

(** popping everything visits the queue backwards *)
Lemma hash_kept_fill m binIds pq :
  mn_hash_kept m binIds pq (Z.of_nat (length pq)) =
  (hashes ← mn_fill (dh_numHashes (mn_d m)) binIds (rev (map q_index pq)); mn_densify m hashes).
Proof.
  unfold mn_hash_kept, mn_fill. destruct (make_slice minInt64 (dh_numHashes (mn_d m))) as [hashes|]; [|done].
  cbn [mbind res_bind].
  match goal with |- context [foldM ?f _ _] => set (F := f) end.
  assert (HG : forall (ns : list Z) pq hashes, length ns = length pq ->
    foldM F (hashes, pq) ns
    = match foldM (mn_put binIds) hashes (rev (map q_index pq)) with Ok h => Ok (h, []) | Panic p => Panic p end).
  { induction ns as [|n ns IH]; intros q h Hl.
    - destruct q; [done|simpl in Hl; lia].
    - destruct q as [|x q _] using rev_ind; [simpl in Hl; lia|].
      rewrite map_app, rev_app_distr. cbn [map rev app foldM]. unfold F at 1. rewrite pop_last_snoc. cbn [mbind res_bind].
      destruct (mn_put binIds h (q_index x)) as [h'|]; cbn [mbind res_bind]; [|done].
      apply IH. rewrite app_length in Hl. simpl in Hl. lia. }
  rewrite HG by (rewrite seqZ_length; lia).
  by destruct (foldM (mn_put binIds) hashes (rev (map q_index pq))).
Qed.

Lemma entries_index vals : map q_index (entries_of vals) = seqZ 0 (Z.of_nat (length vals)).
Proof.
  induction vals as [|v vals IH] using rev_ind; [done|].
  rewrite entries_of_snoc, map_app, IH, app_length. simpl.
  replace (Z.of_nat (length vals + 1)) with (Z.of_nat (length vals) + 1) by lia.
  rewrite seqZ_app by lia. by rewrite seqZ_one, Z.add_0_l.
Qed.

Lemma mn_easy_dense_kept m binIds data topK :
  0 <= topK <= Z.of_nat (length data) ->
  exists kept, NoDup kept /\ Z.of_nat (length kept) = topK /\
    (forall i, i ∈ kept -> 0 <= i < Z.of_nat (length data)) /\
    (Forall (fun v => is_nan v = false) data -> k_smallest topK data kept) /\
    forall spare vs, length vs = length kept ->
      mn_GetHashEasyDense m binIds data spare topK = mn_GetHash m kept vs binIds.
Proof.
  intros Hk.
  assert (HS : forall spare, mn_heap_dense data spare topK = mn_heap_dense data [] topK).
  { intros spare. unfold mn_heap_dense, slice_to.
    rewrite !app_length, Nat.add_0_r. replace ((topK <? 0) || _) with false by lia.
    replace ((topK <? 0) || _) with false by lia.
    rewrite app_nil_r. rewrite take_app_le by lia. done. }
  destruct (heap_dense_ok data [] topK) as (pq & dropped & HE & Hperm & Hlen & Hord).
  { rewrite app_nil_r. done. }
  rewrite take_nil, app_nil_r in Hperm, Hord.
  set (kept := rev (map q_index pq)).
  assert (Hip : map q_index pq ++ map q_index dropped ≡ₚ seqZ 0 (Z.of_nat (length data))).
  { rewrite <- map_app, Hperm. by rewrite entries_index. }
  assert (Hnd : NoDup (map q_index pq ++ map q_index dropped)) by (rewrite Hip; apply NoDup_seqZ).
  assert (Hkin : forall i, i ∈ kept <-> i ∈ map q_index pq).
  { intros i. unfold kept. by rewrite <- (Permutation_rev (map q_index pq)). }
  assert (Hnk : NoDup kept).
  { unfold kept. rewrite <- (Permutation_rev (map q_index pq)). by apply NoDup_app in Hnd as [? _]. }
  assert (Hlk : Z.of_nat (length kept) = topK) by (unfold kept; rewrite rev_length, map_length; lia).
  assert (Hrange : forall i, i ∈ kept -> 0 <= i < Z.of_nat (length data)).
  { intros i Hi%Hkin. assert (Hin : i ∈ seqZ 0 (Z.of_nat (length data))) by (rewrite <- Hip; apply elem_of_app; by left).
    apply elem_of_seqZ in Hin. lia. }
  exists kept. split; [done|]. split; [done|]. split; [done|]. split.
  - intros Hnan. split; [done|]. split; [done|]. split; [done|].
    intros i j v w Hi Hj Hj0 Hv Hw.
    apply Hkin, elem_of_list_fmap in Hi as (qi & -> & Hqi).
    assert (Hjd : j ∈ map q_index dropped).
    { assert (Hin : j ∈ seqZ 0 (Z.of_nat (length data))) by (apply elem_of_seqZ; apply lookup_lt_Some in Hw; lia).
      rewrite <- Hip in Hin. apply elem_of_app in Hin as [Hin|]; [|done]. by apply Hkin in Hin. }
    apply elem_of_list_fmap in Hjd as (qj & -> & Hqj).
    assert (Hei : qi ∈ entries_of data) by (rewrite <- Hperm; apply elem_of_app; by left).
    assert (Hej : qj ∈ entries_of data) by (rewrite <- Hperm; apply elem_of_app; by right).
    apply elem_of_entries in Hei as [_ Hei], Hej as [_ Hej].
    rewrite Hv in Hei. rewrite Hw in Hej. injection Hei as ->. injection Hej as ->. by apply Hord.
  - intros spare vs Hvs. unfold mn_GetHashEasyDense. rewrite HS, HE. cbn [mbind res_bind].
    rewrite <- Hlen, hash_kept_fill. rewrite mn_GetHash_fill by lia.
    rewrite Hvs. rewrite take_ge by lia. done.
Qed.

(* ---------------- GetHashEasy = GetHashEasyDense ---------------- *)

Lemma mn_heap_agree data spare topK :
  mn_heap_pairs data spare topK = mn_heap_dense (map iv_value data) (map iv_value spare) topK.
Proof.
  unfold mn_heap_pairs, mn_heap_dense. destruct (make_slice (mkQ 0 fzero) topK) as [pq|]; [|done].
  cbn [mbind res_bind]. unfold slice_to. rewrite <- map_app, !map_length.
  destruct ((topK <? 0) || _); [done|]. cbn [mbind res_bind].
  rewrite firstn_map. 
  assert (HF : forall (xs : list Pair) pq,
    foldM (fun pq '(index, value) => sset pq index (mkQ index (iv_value value))) pq (indexed xs)
    = foldM (fun pq '(index, value) => sset pq index (mkQ index value)) pq (indexed (map iv_value xs))).
  { intros xs. induction xs as [|x xs IH] using rev_ind; intros q; [done|].
    rewrite map_app. cbn [map]. rewrite !indexed_snoc, !foldM_snoc, IH, map_length. done. }
  rewrite HF. destruct (foldM _ pq _) as [pq1|]; [|done]. cbn [mbind res_bind].
  destruct (h_Init q_less pq1) as [pq2|]; [|done]. cbn [mbind res_bind].
  generalize (seqZ topK (Z.of_nat (length data) - topK)). intros ns. revert pq2.
  induction ns as [|n ns IH]; intros pq2; [done|]. cbn [foldM].
  assert (Hs : sget (map iv_value data) n = match sget data n with Ok d => Ok (iv_value d) | Panic p => Panic p end).
  { unfold sget. destruct (n <? 0); [done|]. rewrite list_lookup_fmap. by destruct (data !! Z.to_nat n). }
  rewrite Hs. destruct (sget data n) as [d|]; [|done]. cbn [mbind res_bind].
  destruct (h_Push q_less pq2 _) as [pq3|]; [|done]. cbn [mbind res_bind].
  destruct (h_Pop q_less pq3) as [[r pq4]|]; [|done]. cbn [mbind res_bind]. apply IH.
Qed.

Lemma mn_easy_agree m binIds data spare topK :
  mn_GetHashEasy m binIds data spare topK
  = mn_GetHashEasyDense m binIds (map iv_value data) (map iv_value spare) topK.
Proof. unfold mn_GetHashEasy, mn_GetHashEasyDense. by rewrite mn_heap_agree. Qed.

Lemma mn_easy_panics m binIds data topK :
  let H := dh_numHashes (mn_d m) in
  0 <= H -> 0 <= dh_logNumHash (mn_d m) <= 31 ->
  ((topK < 0 \/ Z.of_nat (length data) < topK) -> exists p, mn_GetHashEasyDense m binIds data [] topK = Panic p) /\
  (0 <= topK <= Z.of_nat (length data) ->
   (forall i, 0 <= i < Z.of_nat (length data) -> exists b, binIds !! Z.to_nat i = Some b /\ 0 <= b < H) ->
   exists hs, mn_GetHashEasyDense m binIds data [] topK = Ok hs /\ Z.of_nat (length hs) = H) /\
  (1 <= topK <= Z.of_nat (length data) ->
   (forall i, 0 <= i < Z.of_nat (length data) -> forall b, binIds !! Z.to_nat i = Some b -> b < 0 \/ H <= b) ->
   exists p, mn_GetHashEasyDense m binIds data [] topK = Panic p).
Proof.
  cbv zeta. intros HH Hlog. split; [|split].
  - intros Hk. unfold mn_GetHashEasyDense, mn_heap_dense, make_slice, slice_to. rewrite app_nil_r.
    destruct (topK <? 0) eqn:E; cbn [mbind res_bind]; [eauto|].
    replace (Z.of_nat (length data) <? topK) with true by lia. cbn [orb mbind res_bind]. eauto.
  - intros Hk Hb. destruct (mn_easy_dense_kept m binIds data topK Hk) as (kept & _ & Hlk & Hr & _ & HE).
    rewrite (HE [] (replicate (length kept) fzero)) by (by rewrite replicate_length).
    destruct (mn_hash_spec m kept (replicate (length kept) fzero) binIds) as (hs & HE' & Hl & _); [done|done| | |eauto].
    + rewrite replicate_length. done.
    + rewrite replicate_length, take_ge by done. intros ix Hix. apply Hr in Hix. split; [lia|]. by apply Hb.
  - intros Hk Hb. destruct (mn_easy_dense_kept m binIds data topK ltac:(lia)) as (kept & _ & Hlk & Hr & _ & HE).
    rewrite (HE [] (replicate (length kept) fzero)) by (by rewrite replicate_length).
    destruct kept as [|ix kept]; [simpl in Hlk; lia|].
    rewrite mn_GetHash_fill by (by rewrite replicate_length).
    rewrite replicate_length, take_ge by done.
    unfold mn_fill, make_slice. replace (_ <? 0) with false by lia. cbn [mbind res_bind foldM].
    unfold mn_put at 1. destruct (sget binIds ix) as [b|] eqn:E; cbn [mbind res_bind]; [|eauto].
    apply sget_Ok in E as [E0 E]. specialize (Hr ix ltac:(by left)). specialize (Hb ix Hr b E).
    rewrite (proj1 (sget_panic _ b)) by (rewrite replicate_length; lia). cbn [mbind res_bind]. eauto.
Qed.

(** C27 witness: with values 1, 2, 3 and topK = 1 the hash is that of index 0. *)
Definition mn_m3 : Minhash :=
  {| mn_d := {| dh_randHash := (3, 5); dh_randa := 7; dh_numHashes := 3; dh_rangePow := 9; dh_logNumHash := 1 |};
     mn_mh := fun i => i |}.

Lemma mn_easy_refuted :
  exists m binIds data topK hs,
    1 <= topK <= Z.of_nat (length data) /\ Forall (fun v => is_nan v = false) data /\
    mn_GetHashEasyDense m binIds data [] topK = Ok hs /\
    forall kept vs, k_largest topK data kept -> length vs = length kept -> mn_GetHash m kept vs binIds <> Ok hs.
Proof.
  exists mn_m3, [0; 1; 2], [fone; f_of_Z 2; f_of_Z 3], 1. eexists. split; [simpl; lia|].
  split; [repeat constructor|]. split; [vm_compute; reflexivity|].
  intros kept vs (Hnd & Hl & Hr & Hmax) Hvs.
  destruct kept as [|i [|]]; [simpl in Hl; lia| |simpl in Hl; lia].
  assert (Hi : i = 2).
  { assert (Hir : i = 0 \/ i = 1 \/ i = 2) by (specialize (Hr i ltac:(by left)); simpl in Hr; lia).
    destruct Hir as [->|[->| ->]]; [| |done].
    - specialize (Hmax 0 2 fone (f_of_Z 3) ltac:(by left)). vm_compute in Hmax. exfalso.
      assert (true = false); [|done]. apply Hmax; [|done..]. intros H%elem_of_list_singleton. done.
    - specialize (Hmax 1 2 (f_of_Z 2) (f_of_Z 3) ltac:(by left)). vm_compute in Hmax. exfalso.
      assert (true = false); [|done]. apply Hmax; [|done..]. intros H%elem_of_list_singleton. done. }
  subst i. destruct vs as [|v [|]]; [simpl in Hvs; lia| |simpl in Hvs; lia].
  vm_compute. congruence.
Qed.

Lemma mn_narrow log2 mh H rp g m g' n ids :
  1 <= H <= 2^53 -> 0 <= rp <= 52 -> 0 <= n <= 2^55 ->
  0 <= int_of_f (log2 (f_of_Z H)) <= 31 ->
  mn_New log2 mh H rp g = (m, g') -> mn_GetMap m n = Ok ids ->
  forall indices data, length indices = length data -> Forall (fun ix => 0 <= ix < n) indices ->
    exists hs, mn_GetHash m indices data ids = Ok hs /\ Z.of_nat (length hs) = H.
Proof.
  intros HH Hrp Hn Hlog HN HM indices data Hl Hix.
  destruct (mn_map log2 mh H rp g m g' n) as (ids' & HM' & Hlen & _ & Hr); [done..|].
  rewrite HM in HM'. injection HM' as <-.
  apply mn_New_fields in HN as (HfH & _ & _ & Hfl).
  destruct (mn_hash_spec m indices data ids) as (hs & HE & Hlh & _).
  - rewrite HfH; lia.
  - by rewrite Hfl.
  - lia.
  - intros ix Hin. rewrite take_ge in Hin by lia. rewrite Forall_forall in Hix. apply Hix in Hin.
    split; [lia|]. destruct (lookup_lt_is_Some_2 ids (Z.to_nat ix)) as [b Hb]; [lia|].
    exists b. split; [done|]. rewrite HfH. by eapply Forall_lookup_1 in Hr.
  - exists hs. split; [done|]. by rewrite <- HfH.
Qed.
