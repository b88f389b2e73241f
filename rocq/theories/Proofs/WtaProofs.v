(** Proofs about the WTA hash function. *)
From Verif.Model Require Import Wta.
From Verif.Spec Require Import HashSpec.
From Verif.Proofs Require Import BaseProofs FloatOrder FloatReal.
From Coq Require Import Lia ZifyBool ZifyNat.

Lemma prefix_snoc_lookup {A} (pre xs : list A) x :
  pre ++ [x] `prefix_of` xs -> xs !! length pre = Some x.
Proof. intros [suf ->]. rewrite <- app_assoc. by apply list_lookup_middle. Qed.

Lemma prefix_snoc_seqZ pre x m k :
  pre ++ [x] `prefix_of` seqZ m k -> x = m + Z.of_nat (length pre) /\ Z.of_nat (length pre) < k.
Proof. intros H%prefix_snoc_lookup. apply lookup_seqZ in H. lia. Qed.

Lemma copy_range_full {A} (dst src : list A) (lo hi : Z) :
  0 <= lo -> hi = lo + Z.of_nat (length src) -> hi <= Z.of_nat (length dst) ->
  copy_range dst lo hi src = Ok (take (Z.to_nat lo) dst ++ src ++ drop (Z.to_nat hi) dst).
Proof.
  intros H0 Hhi Hlen. unfold copy_range.
  assert (Hle : length src = length (take (Z.to_nat (hi - lo)) (drop (Z.to_nat lo) dst))).
  { rewrite take_length, drop_length. lia. }
  replace ((0 <=? lo) && (lo <=? hi) && (hi <=? Z.of_nat (length dst))) with true by lia.
  unfold go_copy. rewrite <- Hle, firstn_all.
  rewrite (drop_ge (take _ _) (length src)) by lia. by rewrite app_nil_r.
Qed.

Lemma concat_length_uniform {A} (ls : list (list A)) n :
  Forall (fun l => length l = n) ls -> length (concat ls) = (length ls * n)%nat.
Proof. induction 1 as [|l ls Hl _ IH]; simpl; [done|]. rewrite app_length, IH. lia. Qed.

Lemma Permutation_seqZ_length (l : list Z) n : 0 <= n -> l ≡ₚ seqZ 0 n -> Z.of_nat (length l) = n.
Proof. intros Hn H%Permutation_length. rewrite seqZ_length in H. lia. Qed.

Definition wta_ceil (numHashes n : Z) : Z := (8 * numHashes + n - 1) / n.

Lemma wta_permute_ceil numHashes n :
  0 <= numHashes -> 8 * numHashes < 2^53 -> 0 < n <= 2^53 ->
  wta_permute numHashes n = wta_ceil numHashes n.
Proof. intros. unfold wta_permute, wta_binSize. by apply int_ceil_mul8_div. Qed.

Lemma wta_ceil_bounds numHashes n :
  0 <= numHashes -> 8 * numHashes < 2^53 -> 0 < n <= 2^53 ->
  0 <= wta_ceil numHashes n /\ 8 * numHashes <= n * wta_ceil numHashes n < 2^54.
Proof.
  intros H1 H2 H3. unfold wta_ceil.
  pose proof (Z.div_mod (8 * numHashes + n - 1) n ltac:(lia)) as HD.
  pose proof (Z.mod_pos_bound (8 * numHashes + n - 1) n ltac:(lia)).
  split; [apply Z.div_pos; lia|]. lia.
Qed.

(** the shuffled table is a concatenation of permutations *)
Lemma wta_shuffle_spec n k g :
  0 < n -> 0 <= k -> n * k < 2^62 ->
  exists nArray indices g' perms,
    foldM (wta_shuffle_step n) (seqZ 0 n, replicate (Z.to_nat (n * k)) 0, g) (seqZ 0 k)
      = Ok (nArray, indices, g') /\
    indices = concat perms /\ Forall (fun p => p ≡ₚ seqZ 0 n) perms /\ Z.of_nat (length perms) = k.
Proof.
  intros Hn Hk Hnk.
  edestruct (foldM_inv_prefix (fun pre st => let '(nArray, indices, _) := st in
      nArray ≡ₚ seqZ 0 n /\ exists perms : list (list Z), length perms = length pre /\
        Forall (fun p => p ≡ₚ seqZ 0 n) perms /\
        indices = concat perms ++ replicate (Z.to_nat (n * (k - Z.of_nat (length pre)))) 0)
      (wta_shuffle_step n) (seqZ 0 k) (seqZ 0 n, replicate (Z.to_nat (n * k)) 0, g))
    as (s & Hs & HI).
  - split; [done|]. exists []. split; [done|]. split; [done|].
    simpl. f_equal. f_equal. lia.
  - intros pre x [[nArray indices] g0] (Hperm & perms & Hlen & Hall & Hix) Hpre.
    apply prefix_snoc_seqZ in Hpre as [-> Hlt]. rewrite Z.add_0_l.
    unfold wta_shuffle_step. destruct (shuffle nArray g0) as [nA g1] eqn:Esh.
    apply shuffle_Permutation in Esh.
    assert (HnA : nA ≡ₚ seqZ 0 n) by (by rewrite Esh).
    pose proof (Permutation_seqZ_length _ n ltac:(lia) HnA) as HlA.
    set (m := Z.of_nat (length pre)) in *.
    assert (Hmn : 0 <= m * n <= n * k) by nia.
    assert (Hmn' : m * n + n <= n * k) by nia.
    rewrite (wrap64_small (m * n)) by (unfold in_int64, minInt64, maxInt64; lia).
    rewrite (wrap64_small (m * n + n)) by (unfold in_int64, minInt64, maxInt64; lia).
    assert (Hlc : length (concat perms) = Z.to_nat (m * n)).
    { erewrite concat_length_uniform with (n := Z.to_nat n).
      - rewrite Hlen. unfold m. lia.
      - eapply Forall_impl; [exact Hall|]. intros l Hl%Permutation_seqZ_length; lia. }
    assert (Hli : Z.of_nat (length indices) = n * k).
    { rewrite Hix, app_length, replicate_length, Hlc. lia. }
    rewrite copy_range_full by lia. cbn [mbind res_bind].
    eexists; split; [reflexivity|]. split; [done|].
    exists (perms ++ [nA]). split; [rewrite !app_length; simpl; lia|].
    split; [apply Forall_app; by split; [|apply Forall_singleton]|].
    rewrite Hix, concat_app. cbn [concat]. rewrite app_nil_r.
    rewrite take_app_alt by done. rewrite <- app_assoc. f_equal. f_equal.
    replace (Z.to_nat (m * n + n)) with (length (concat perms) + Z.to_nat n)%nat by lia.
    rewrite <- drop_drop, drop_app, drop_replicate. f_equal.
    rewrite app_length. cbn [length]. nia.
  - destruct s as [[nArray indices] g']. destruct HI as (_ & perms & Hlen & Hall & Hix).
    exists nArray, indices, g', perms. split; [done|]. rewrite seqZ_length in Hlen, Hix.
    split; [|split; [done|lia]]. rewrite Hix.
    replace (Z.to_nat (n * (k - Z.of_nat (Z.to_nat k)))) with O by lia. by rewrite app_nil_r.
Qed.

Definition wta_ok (t : WtaHash) : Prop :=
  exists perms, wta_indices t = concat perms /\
    Forall (fun p => p ≡ₚ seqZ 0 (wta_rangePow t)) perms /\
    0 <= wta_numHashes t /\ 0 < wta_rangePow t /\
    8 * wta_numHashes t <= Z.of_nat (length (wta_indices t)).

Lemma wta_New_spec numHashes n g :
  0 <= numHashes -> 8 * numHashes < 2^53 -> 0 < n <= 2^53 ->
  exists t g' perms, wta_New numHashes n g = Ok (t, g') /\
    wta_numHashes t = numHashes /\ wta_rangePow t = n /\
    wta_indices t = concat perms /\ Forall (fun p => p ≡ₚ seqZ 0 n) perms /\
    Z.of_nat (length perms) = wta_ceil numHashes n /\
    8 * numHashes <= Z.of_nat (length (wta_indices t)).
Proof.
  intros H1 H2 H3. unfold wta_New. rewrite wta_permute_ceil by done.
  pose proof (wta_ceil_bounds numHashes n H1 H2 H3) as [Hc0 Hc].
  set (k := wta_ceil numHashes n) in *. unfold make_slice.
  rewrite wrap64_small by (unfold in_int64, minInt64, maxInt64; lia).
  replace (n <? 0) with false by lia. replace (n * k <? 0) with false by lia.
  cbn [mbind res_bind]. rewrite replicate_length, Z2Nat.id by lia.
  destruct (wta_shuffle_spec n k g) as (nArray & indices & g' & perms & HE & Hix & Hall & Hlen);
    [lia..|].
  rewrite HE. cbn [mbind res_bind].
  exists {| wta_indices := indices; wta_numHashes := numHashes; wta_rangePow := n |}, g', perms.
  cbn [wta_indices wta_numHashes wta_rangePow].
  do 6 (split; [done|]). rewrite Hix.
  erewrite concat_length_uniform with (n := Z.to_nat n); [lia|].
  eapply Forall_impl; [exact Hall|]. intros l Hl%Permutation_seqZ_length; lia.
Qed.

(** candidates of bin [i] *)
Definition wta_cands (t : WtaHash) (i : nat) : list Z := take 8 (drop (8 * i) (wta_indices t)).

Lemma foldM_Forall2 {S A B} (f : S -> A -> res S) (g : S -> B -> S) (xs : list A) (ys : list B) s s' :
  (forall s x s', x ∈ xs -> f s x = Ok s' -> True) ->
  Forall2 (fun x y => forall s, f s x = Ok (g s y)) xs ys ->
  foldM f s xs = Ok s' -> s' = fold_left g ys s.
Proof.
  intros _ H. revert s. induction H as [|x y xs ys Hxy _ IH]; intros s; simpl.
  - by intros [= ->].
  - rewrite Hxy. apply IH.
Qed.

Lemma seqZ_8 : seqZ 0 8 = [0;1;2;3;4;5;6;7].
Proof. reflexivity. Qed.

(** Run of one bin, as a pure maximum over the 8 candidates *)
Lemma wta_bin_spec t get (i : nat) h :
  wta_bin t get (Z.of_nat i) = Ok h ->
  exists vals, length (wta_cands t i) = 8%nat /\
    Forall2 (fun c v => get c = Ok v) (wta_cands t i) vals /\
    h = (fold_left amax_step (zip (wta_cands t i) vals) (minInt64, fMinInt64)).1.
Proof.
  unfold wta_bin. 
  assert (HH : forall js (m : nat) st r, js = map Z.of_nat (seq m (length js)) ->
    foldM (fun '(h, v) j =>
        curIndex ← sget (wta_indices t) (Z.of_nat i * wta_binSize + j);
        value ← get curIndex;
        Ok (if fltb v value then (curIndex, value) else (h, v))) st js = Ok r ->
    exists cs vs, cs = take (length js) (drop (8 * i + m) (wta_indices t)) /\
      length cs = length js /\ Forall2 (fun c v => get c = Ok v) cs vs /\
      r = fold_left amax_step (zip cs vs) st).
  { induction js as [|j js IH]; intros m [h0 v0] r Hjs; cbn [foldM length].
    - intros [= <-]. exists [], []. rewrite take_0. done.
    - cbn [length seq map] in Hjs. injection Hjs as -> Hjs.
      unfold wta_binSize. destruct (sget _ _) as [c|] eqn:Hc; cbn [mbind res_bind]; [|done].
      destruct (get c) as [v|] eqn:Hv; cbn [mbind res_bind]; [|done].
      intros HE. apply (IH (S m)) in HE as (cs & vs & Hcs & Hl & HF & ->); [|done].
      apply sget_Ok in Hc as [_ Hc]. replace (Z.to_nat _) with (8 * i + m)%nat in Hc by lia.
      exists (c :: cs), (v :: vs). split; [|split; [simpl; lia|split; [by constructor|]]].
      + rewrite (drop_S _ _ _ Hc). cbn [take]. f_equal. rewrite Hcs. f_equal. f_equal. lia.
      + simpl. f_equal. }
  destruct (foldM _ _ _) as [[h0 v0]|] eqn:E; cbn [mbind res_bind]; [|done]. intros [= ->].
  apply (HH _ O) in E as (cs & vs & Hcs & Hl & HF & Hr); [|done].
  unfold wta_binSize in Hcs, Hl. rewrite seqZ_length in Hcs, Hl.
  rewrite Nat.add_0_r in Hcs. change (Z.to_nat 8) with 8%nat in *.
  unfold wta_cands. rewrite <- Hcs. exists vs. split; [done|]. split; [done|]. by rewrite <- Hr.
Qed.

Lemma wta_hashes_lookup t get hs (i : nat) h :
  wta_hashes t get = Ok hs -> hs !! i = Some h -> wta_bin t get (Z.of_nat i) = Ok h.
Proof.
  unfold wta_hashes. destruct (make_slice 0 (wta_numHashes t)) as [l|]; cbn [mbind res_bind]; [|done].
  intros HM Hi. pose proof (mapM_res_length _ _ _ HM) as Hlen.
  pose proof (lookup_lt_Some _ _ _ Hi) as Hlt.
  rewrite seqZ_length in Hlen.
  destruct (mapM_res_lookup _ _ _ i (Z.of_nat i) HM) as (y & Hy & E).
  { apply lookup_seqZ. lia. }
  congruence.
Qed.

Lemma wta_hashes_length t get hs :
  wta_hashes t get = Ok hs -> Z.of_nat (length hs) = wta_numHashes t.
Proof.
  unfold wta_hashes, make_slice. destruct (Z.ltb_spec (wta_numHashes t) 0); [done|].
  cbn [mbind res_bind]. intros HM%mapM_res_length. rewrite seqZ_length, replicate_length in HM. lia.
Qed.

Lemma wta_hash_first_max t get hs (i : nat) h :
  wta_hashes t get = Ok hs -> hs !! i = Some h ->
  exists vals, length (wta_cands t i) = 8%nat /\
    Forall2 (fun c v => get c = Ok v) (wta_cands t i) vals /\
    ((exists q, first_max fMinInt64 vals q /\ wta_cands t i !! q = Some h) \/
     (none_above fMinInt64 vals /\ h = minInt64)).
Proof.
  intros HM Hi. pose proof (wta_hashes_lookup _ _ _ _ _ HM Hi) as Hb.
  apply wta_bin_spec in Hb as (vals & Hl & HF & Hh). exists vals. split; [done|]. split; [done|].
  pose proof (Forall2_length _ _ _ HF) as Hlv.
  assert (Hz : (zip (wta_cands t i) vals).*2 = vals) by (apply snd_zip; lia).
  destruct (amax_spec minInt64 fMinInt64 (zip (wta_cands t i) vals)) as [[Hn Hr]|(q & Hq & Hr)].
  - right. rewrite Hz in Hn. split; [done|]. by rewrite Hh, Hr.
  - left. rewrite Hz in Hq. exists q. split; [done|].
    assert ((zip (wta_cands t i) vals).*1 !! q = Some h) as HH.
    { rewrite list_lookup_fmap, Hr, Hh. done. }
    by rewrite fst_zip in HH by lia.
Qed.

(** No panic *)
Lemma wta_bin_total t get (i : nat) :
  Forall (fun c => exists v, get c = Ok v) (wta_cands t i) -> length (wta_cands t i) = 8%nat ->
  exists h, wta_bin t get (Z.of_nat i) = Ok h.
Proof.
  intros HF Hl. unfold wta_bin.
  match goal with |- context [foldM ?f ?s ?xs] =>
    destruct (foldM_inv (fun _ : Z * float64 => True) f xs s) as ([h v] & HE & _); [done| |] end.
  2:{ rewrite HE. cbn [mbind res_bind]. eauto. }
  intros [h v] j _ Hj. apply elem_of_seqZ in Hj. unfold wta_binSize in Hj |- *.
  destruct (lookup_lt_is_Some_2 (wta_cands t i) (Z.to_nat j)) as [c Hc]; [lia|].
  pose proof (Forall_lookup_1 _ _ _ _ HF Hc) as [w Hw].
  unfold wta_cands in Hc. rewrite lookup_take in Hc by lia. rewrite lookup_drop in Hc.
  assert (sget (wta_indices t) (Z.of_nat i * 8 + j) = Ok c) as ->.
  { apply sget_Ok. split; [lia|]. rewrite <- Hc. f_equal. lia. }
  cbn [mbind res_bind]. rewrite Hw. cbn [mbind res_bind]. eauto.
Qed.

Lemma wta_hashes_total t get :
  0 <= wta_numHashes t -> 8 * wta_numHashes t <= Z.of_nat (length (wta_indices t)) ->
  Forall (fun c => exists v, get c = Ok v) (wta_indices t) ->
  exists hs, wta_hashes t get = Ok hs.
Proof.
  intros H0 H8 HF. unfold wta_hashes, make_slice.
  replace (wta_numHashes t <? 0) with false by lia. cbn [mbind res_bind].
  apply mapM_res_total. intros x Hx. apply elem_of_seqZ in Hx.
  rewrite replicate_length in Hx.
  destruct (wta_bin_total t get (Z.to_nat x)) as [h Hh].
  - by apply Forall_take, Forall_drop.
  - unfold wta_cands. rewrite take_length, drop_length. lia.
  - exists h. rewrite <- Hh. f_equal. lia.
Qed.

Lemma concat_perms_range perms n :
  Forall (fun p => p ≡ₚ seqZ 0 n) perms -> Forall (fun c => 0 <= c < n) (concat perms).
Proof.
  intros HF. apply Forall_concat. eapply Forall_impl; [exact HF|].
  intros p Hp. rewrite Hp. apply Forall_forall. intros x Hx%elem_of_seqZ. lia.
Qed.

(** relational: two readers that agree on the order give the same hashes *)
Lemma wta_bin_rel t (get get' : Z -> res float64) i :
  (forall c, (exists v v', get c = Ok v /\ get' c = Ok v' /\ fltb fMinInt64 v = fltb fMinInt64 v') \/
             (exists p, get c = Panic p /\ get' c = Panic p)) ->
  (forall c d v v' w w', get c = Ok v -> get' c = Ok v' -> get d = Ok w -> get' d = Ok w' ->
      fltb v w = fltb v' w') ->
  wta_bin t get i = wta_bin t get' i.
Proof.
  intros H1 H2. unfold wta_bin.
  set (f := fun gt : Z -> res float64 => fun '(h, v) j =>
        curIndex ← sget (wta_indices t) (i * wta_binSize + j);
        value ← gt curIndex;
        Ok (if fltb v value then (curIndex, value) else (h, v))).
  change (('(h, _) ← foldM (f get) (minInt64, fMinInt64) (seqZ 0 wta_binSize); Ok h) =
          ('(h, _) ← foldM (f get') (minInt64, fMinInt64) (seqZ 0 wta_binSize); Ok h)).
  generalize (seqZ 0 wta_binSize). intros js.
  assert (HH : forall st st', st.1 = st'.1 ->
     ((st.2 = fMinInt64 /\ st'.2 = fMinInt64) \/ (get st.1 = Ok st.2 /\ get' st.1 = Ok st'.2)) ->
     ('(h, _) ← foldM (f get) st js; Ok h) = ('(h, _) ← foldM (f get') st' js; Ok h)).
  { induction js as [|j js IH]; intros [h v] [h' v'] Hh Hst; simpl in Hh, Hst; subst h'; [done|].
    cbn [foldM]. unfold f at 1 3.
    destruct (sget _ _) as [c|] eqn:Hc; cbn [mbind res_bind]; [|done].
    destruct (H1 c) as [(w & w' & Hw & Hw' & Hmin)|(p & Hw & Hw')]; rewrite Hw, Hw'; cbn [mbind res_bind]; [|done].
    assert (fltb v w = fltb v' w') as E.
    { destruct Hst as [[-> ->]|[Hv Hv']]; [done|]. by eapply H2. }
    rewrite <- E. destruct (fltb v w); apply IH; simpl; auto. }
  by apply HH; simpl; auto.
Qed.

Lemma mapM_res_ext {A B} (f g : A -> res B) xs :
  (forall x, x ∈ xs -> f x = g x) -> mapM_res f xs = mapM_res g xs.
Proof.
  induction xs as [|x xs IH]; intros H; simpl; [done|].
  rewrite H by left. destruct (g x); [|done]. rewrite IH; [done|]. intros y Hy. apply H. by right.
Qed.

Lemma wta_order_only t data data' :
  length data = length data' ->
  (forall a b x y x' y', data !! a = Some x -> data !! b = Some y ->
     data' !! a = Some x' -> data' !! b = Some y' -> fltb x y = fltb x' y') ->
  (forall a x x', data !! a = Some x -> data' !! a = Some x' -> fltb fMinInt64 x = fltb fMinInt64 x') ->
  wta_GetHashDense t data = wta_GetHashDense t data'.
Proof.
  intros Hlen Hord Hmin. unfold wta_GetHashDense, wta_hashes.
  destruct (make_slice _ _); cbn [mbind res_bind]; [|done].
  apply mapM_res_ext. intros i _. apply wta_bin_rel.
  - intros c. destruct (decide (0 <= c < Z.of_nat (length data))) as [Hc|Hc].
    + left. destruct (sget_total data c Hc) as (v & -> & Hv).
      destruct (sget_total data' c ltac:(lia)) as (v' & -> & Hv'). eauto 10.
    + right. exists PIndex. split; apply sget_panic; lia.
  - intros c d v v' w w' [_ ?]%sget_Ok [_ ?]%sget_Ok [_ ?]%sget_Ok [_ ?]%sget_Ok. eauto.
Qed.

(** the sparse reader just takes the values in list order *)
Lemma wta_GetHash_values t pairs : wta_GetHash t pairs = wta_GetHashDense t (map iv_value pairs).
Proof.
  unfold wta_GetHash, wta_GetHashDense, wta_hashes.
  destruct (make_slice _ _); cbn [mbind res_bind]; [|done].
  apply mapM_res_ext. intros i _. unfold wta_bin. f_equal.
  generalize (seqZ 0 wta_binSize). intros js.
  assert (forall c, (p ← sget pairs c; Ok (iv_value p)) = sget (map iv_value pairs) c) as HH.
  { intros c. unfold sget. destruct (c <? 0); [done|]. rewrite list_lookup_fmap.
    by destruct (pairs !! Z.to_nat c). }
  generalize (minInt64, fMinInt64). induction js as [|j js IH]; intros [h v]; [done|]. cbn [foldM].
  destruct (sget (wta_indices t) _) as [c|]; cbn [mbind res_bind]; [|done].
  specialize (HH c). rewrite <- HH.
  destruct (p ← sget pairs c; Ok (iv_value p)); cbn [mbind res_bind]; [apply IH|done].
Qed.

Lemma dense_of_full n pairs :
  map iv_index pairs = seqZ 0 n -> dense_of n pairs = map iv_value pairs.
Proof.
  intros H. unfold dense_of. rewrite <- H.
  assert (Hnd : NoDup (map iv_index pairs)) by (rewrite H; apply NoDup_seqZ).
  apply list_eq. intros i. rewrite !list_lookup_fmap.
  destruct (pairs !! i) as [p|] eqn:Hp; [|done]. simpl. f_equal.
  destruct (list_find _ pairs) as [[k p']|] eqn:Ef.
  - apply list_find_Some in Ef as (Hk & Heq & _).
    assert (k = i) as ->; [|congruence].
    eapply NoDup_lookup; [exact Hnd| |].
    + rewrite list_lookup_fmap, Hk. simpl. by rewrite Heq.
    + by rewrite list_lookup_fmap, Hp.
  - apply list_find_None in Ef. apply (Forall_lookup_1 _ _ _ _ Ef) in Hp. done.
Qed.

Lemma wta_tables numHashes n g :
  0 <= numHashes -> 8 * numHashes < 2^53 -> 0 < n <= 2^53 ->
  exists t g' perms, wta_New numHashes n g = Ok (t, g') /\
    wta_indices t = concat perms /\
    Forall (fun p => p ≡ₚ seqZ 0 n) perms /\
    Z.of_nat (length perms) = (8 * numHashes + n - 1) / n /\
    8 * numHashes <= Z.of_nat (length (wta_indices t)) /\
    (forall data, n <= Z.of_nat (length data) ->
       exists hs, wta_GetHashDense t data = Ok hs /\ Z.of_nat (length hs) = numHashes).
Proof.
  intros H1 H2 H3.
  destruct (wta_New_spec numHashes n g H1 H2 H3) as (t & g' & perms & HE & HN & Hr & Hix & Hall & Hlen & H8).
  exists t, g', perms. do 5 (split; [done|]). intros data Hd.
  destruct (wta_hashes_total t (fun c => sget data c)) as [hs Hhs].
  - lia.
  - lia.
  - rewrite Hix. eapply Forall_impl; [by apply concat_perms_range|].
    intros c Hc. destruct (sget_total data c) as (v & Hv & _); [simpl in Hc; lia|]. eauto.
  - exists hs. split; [done|]. rewrite (wta_hashes_length _ _ _ Hhs). done.
Qed.

Lemma wta_dense_first_max t data hs i h :
  wta_GetHashDense t data = Ok hs -> hs !! i = Some h ->
  exists cands vals,
    cands = take 8 (drop (8 * i) (wta_indices t)) /\ length cands = 8%nat /\
    Forall2 (fun c v => 0 <= c /\ data !! Z.to_nat c = Some v) cands vals /\
    ((exists q, first_max fMinInt64 vals q /\ cands !! q = Some h) \/
     (none_above fMinInt64 vals /\ h = minInt64)).
Proof.
  intros H Hi. destruct (wta_hash_first_max _ _ _ _ _ H Hi) as (vals & Hl & HF & Hor).
  exists (wta_cands t i), vals. split; [done|]. split; [done|]. split; [|done].
  eapply Forall2_impl; [exact HF|]. intros c v. apply sget_Ok.
Qed.

Lemma first_max_unique lo vals q q' :
  first_max lo vals q -> (first_max lo vals q' -> q = q') /\ ~ none_above lo vals.
Proof. intros H. split; [by apply first_max_functional|]. intros Hn. by eapply first_max_not_none. Qed.

Lemma wta_sparse_full t n pairs :
  map iv_index pairs = seqZ 0 n -> wta_GetHash t pairs = wta_GetHashDense t (dense_of n pairs).
Proof. intros. by rewrite wta_GetHash_values, dense_of_full with (n := n). Qed.

Lemma wta_sparse_refuted :
  exists numHashes n g t g' pairs hs hs',
    wta_New numHashes n g = Ok (t, g') /\
    NoDup (map iv_index pairs) /\ Forall (fun p => 0 <= iv_index p < n) pairs /\
    wta_GetHashDense t (dense_of n pairs) = Ok hs /\
    wta_GetHash t pairs = Ok hs' /\ hs <> hs'.
Proof.
  exists 1, 2, {| rstream := fun n => 5 + 11 * Z.of_nat n; rpos := 0 |}. do 2 eexists.
  exists [mkPair 1 (f_of_Z 1); mkPair 0 (f_of_Z 2)]. do 2 eexists.
  split; [vm_compute; reflexivity|].
  split; [apply (bool_decide_unpack _); vm_compute; done|].
  split; [repeat constructor; simpl; lia|].
  split; [vm_compute; reflexivity|]. split; [vm_compute; reflexivity|]. done.
Qed.

Lemma wta_sparse_panics :
  exists numHashes n g t g' pairs hs,
    wta_New numHashes n g = Ok (t, g') /\
    NoDup (map iv_index pairs) /\ Forall (fun p => 0 <= iv_index p < n) pairs /\
    wta_GetHashDense t (dense_of n pairs) = Ok hs /\ wta_GetHash t pairs = Panic PIndex.
Proof.
  exists 1, 2, {| rstream := fun n => 5 + 11 * Z.of_nat n; rpos := 0 |}. do 2 eexists.
  exists [mkPair 1 (f_of_Z 1)]. eexists.
  split; [vm_compute; reflexivity|].
  split; [apply (bool_decide_unpack _); vm_compute; done|].
  split; [repeat constructor; simpl; lia|].
  split; vm_compute; reflexivity.
Qed.
