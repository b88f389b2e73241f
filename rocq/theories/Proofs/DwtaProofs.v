(** Proofs about the densified WTA hash function. *)
From Verif.Model Require Import Dwta.
From Verif.Spec Require Import HashSpec.
From Verif.Proofs Require Import BaseProofs FloatOrder FloatReal WtaProofs DensifyProofs.
From Coq Require Import Lia ZifyBool ZifyNat.

Lemma indexed_lookup {A} (xs : list A) i j x :
  indexed xs !! i = Some (j, x) <-> j = Z.of_nat i /\ xs !! i = Some x.
Proof.
  unfold indexed. rewrite lookup_zip_with_Some. split.
  - intros (a & b & [= <- <-] & H1 & H2). apply lookup_seqZ in H1. split; [lia|done].
  - intros [-> H]. exists (Z.of_nat i), x. split; [done|]. split; [|done].
    apply lookup_seqZ. apply lookup_lt_Some in H. lia.
Qed.

Lemma indexed_length {A} (xs : list A) : length (indexed xs) = length xs.
Proof. unfold indexed. rewrite zip_with_length, seqZ_length. lia. Qed.

Lemma elem_of_indexed {A} (xs : list A) i x :
  (i, x) ∈ indexed xs <-> 0 <= i /\ xs !! Z.to_nat i = Some x.
Proof.
  rewrite elem_of_list_lookup. split.
  - intros (k & Hk). apply indexed_lookup in Hk as [-> H]. split; [lia|]. by rewrite Nat2Z.id.
  - intros [H0 H]. exists (Z.to_nat i). apply indexed_lookup. split; [lia|done].
Qed.

(** ** construction *)
Lemma dwta_fill_spec n k p nA ix pos :
  0 < n -> 0 <= p < k -> nA ≡ₚ seqZ 0 n ->
  Z.of_nat (length ix) = n * k -> Z.of_nat (length pos) = n * k ->
  exists ix' pos', foldM (dwta_fill n p) (ix, pos) (indexed nA) = Ok (ix', pos') /\
    Z.of_nat (length ix') = n * k /\ Z.of_nat (length pos') = n * k /\
    (forall j v, nA !! j = Some v ->
       ix' !! Z.to_nat (p * n + v) = Some ((p * n + Z.of_nat j) / 8) /\
       pos' !! Z.to_nat (p * n + v) = Some ((p * n + Z.of_nat j) mod 8)) /\
    (forall m, 0 <= m < p * n -> ix' !! Z.to_nat m = ix !! Z.to_nat m /\ pos' !! Z.to_nat m = pos !! Z.to_nat m).
Proof.
  intros Hn Hp HnA Hix Hpos.
  assert (HND : NoDup nA) by (rewrite HnA; apply NoDup_seqZ).
  assert (Hrange : forall j v, nA !! j = Some v -> 0 <= v < n).
  { intros j v Hj%elem_of_list_lookup_2. rewrite HnA in Hj. apply elem_of_seqZ in Hj. lia. }
  destruct (foldM_inv_prefix (fun pre st => let '(ix', pos') := st in
      Z.of_nat (length ix') = n * k /\ Z.of_nat (length pos') = n * k /\
      (forall j v, (j < length pre)%nat -> nA !! j = Some v ->
         ix' !! Z.to_nat (p * n + v) = Some ((p * n + Z.of_nat j) / 8) /\
         pos' !! Z.to_nat (p * n + v) = Some ((p * n + Z.of_nat j) mod 8)) /\
      (forall m, 0 <= m < p * n -> ix' !! Z.to_nat m = ix !! Z.to_nat m /\ pos' !! Z.to_nat m = pos !! Z.to_nat m))
      (dwta_fill n p) (indexed nA) (ix, pos)) as ([ix' pos'] & HE & H1 & H2 & H3 & H4).
  - do 2 (split; [done|]). split; [|done]. intros j v Hj. simpl in Hj. lia.
  - intros pre [j v] [ix1 pos1] (H1 & H2 & H3 & H4) Hpre.
    apply prefix_snoc_lookup, indexed_lookup in Hpre as [-> Hv].
    pose proof (Hrange _ _ Hv) as Hvr.
    assert (Hb : 0 <= p * n + v < n * k) by nia.
    unfold dwta_fill. rewrite sset_total by lia. cbn [mbind res_bind].
    rewrite sset_total by lia. cbn [mbind res_bind].
    eexists; split; [reflexivity|].
    cbv beta iota; rewrite !insert_length. do 2 (split; [done|]). split.
    + intros j' v' Hj' Hv'. rewrite app_length in Hj'. simpl in Hj'.
      assert (Hpn : 0 <= p * n + Z.of_nat (length pre)) by nia.
      destruct (decide (j' = length pre)) as [->|Hne].
      * rewrite Hv in Hv'. injection Hv' as <-.
        rewrite !list_lookup_insert by lia.
        unfold wta_binSize. by rewrite Z.quot_div_nonneg, Z.rem_mod_nonneg by lia.
      * assert (v <> v') by (intros ->; apply Hne; eapply NoDup_lookup; eauto).
        pose proof (Hrange _ _ Hv').
        rewrite !list_lookup_insert_ne by lia. apply H3; [lia|done].
    + intros m Hm. rewrite !list_lookup_insert_ne by lia. by apply H4.
  - exists ix', pos'. split; [done|]. do 2 (split; [done|]). split; [|done].
    intros j v Hj. apply H3; [|done]. rewrite indexed_length. by eapply lookup_lt_Some.
Qed.

(** the tables are given by permutations *)
Definition dtab (ix pos : list Z) (n k : Z) (perms : list (list Z)) : Prop :=
  Z.of_nat (length ix) = n * k /\ Z.of_nat (length pos) = n * k /\
  Forall (fun p => p ≡ₚ seqZ 0 n) perms /\
  (forall (p : nat) l j v, perms !! p = Some l -> l !! j = Some v ->
     ix !! Z.to_nat (Z.of_nat p * n + v) = Some ((Z.of_nat p * n + Z.of_nat j) / 8) /\
     pos !! Z.to_nat (Z.of_nat p * n + v) = Some ((Z.of_nat p * n + Z.of_nat j) mod 8)).

Lemma dwta_fold_spec n k g :
  0 < n -> 0 <= k ->
  exists nA ix pos g' perms,
    foldM (dwta_step n) (seqZ 0 n, (replicate (Z.to_nat (n * k)) 0, replicate (Z.to_nat (n * k)) 0), g) (seqZ 0 k)
      = Ok (nA, (ix, pos), g') /\
    dtab ix pos n k perms /\ Z.of_nat (length perms) = k.
Proof.
  intros Hn Hk.
  destruct (foldM_inv_prefix (fun pre st => let '(nA, (ix, pos), _) := st in
      nA ≡ₚ seqZ 0 n /\ exists perms, dtab ix pos n k perms /\ length perms = length pre)
      (dwta_step n) (seqZ 0 k)
      (seqZ 0 n, (replicate (Z.to_nat (n * k)) 0, replicate (Z.to_nat (n * k)) 0), g))
    as ([[nA [ix pos]] g'] & HE & _ & perms & HT & HL).
  - split; [done|]. exists []. split; [|done]. unfold dtab. rewrite replicate_length.
    split; [lia|]. split; [lia|]. split; [done|]. intros p l j v Hp. done.
  - intros pre x [[nA [ix pos]] g1] (HnA & perms & (Hl1 & Hl2 & HF & HT) & HL) Hpre.
    apply prefix_snoc_seqZ in Hpre as [-> Hlt]. rewrite Z.add_0_l.
    unfold dwta_step. destruct (shuffle nA g1) as [nA' g2] eqn:Esh.
    apply shuffle_Permutation in Esh. assert (HnA' : nA' ≡ₚ seqZ 0 n) by (by rewrite Esh).
    destruct (dwta_fill_spec n k (Z.of_nat (length pre)) nA' ix pos) as (ix' & pos' & HE & H1 & H2 & H3 & H4);
      [lia|lia|done..|].
    rewrite HE. cbn [mbind res_bind]. eexists; split; [reflexivity|]. split; [done|].
    exists (perms ++ [nA']). split; [|rewrite !app_length; simpl; lia].
    split; [done|]. split; [done|]. split; [apply Forall_app; split; [done|by apply Forall_singleton]|].
    intros p l j v Hp Hj. apply lookup_app_Some in Hp as [Hp|[Hp Hp']].
    + pose proof (HT _ _ _ _ Hp Hj) as [Ha Hb].
      pose proof (Forall_lookup_1 _ _ _ _ HF Hp) as Hlp.
      assert (0 <= v < n).
      { apply elem_of_list_lookup_2 in Hj. rewrite Hlp in Hj. apply elem_of_seqZ in Hj. lia. }
      apply lookup_lt_Some in Hp.
      destruct (H4 (Z.of_nat p * n + v)) as [-> ->]; [nia|]. done.
    + apply list_lookup_singleton_Some in Hp' as [Hz ->].
      assert (p = length pre) as -> by lia. by apply H3.
  - exists nA, ix, pos, g', perms. split; [done|]. split; [done|]. rewrite HL, seqZ_length. lia.
Qed.

Record dwta_good (dw : Dwta) (numHashes n k : Z) : Prop := {
  dg_num : dh_numHashes (dw_d dw) = numHashes;
  dg_n : dh_rangePow (dw_d dw) = n;
  dg_k : dw_permute dw = k;
  dg_tab : exists perms, dtab (dw_indices dw) (dw_pos dw) n k perms /\ Z.of_nat (length perms) = k;
  dg_pos : 0 <= numHashes /\ 0 < n /\ 0 <= k /\ 8 * numHashes <= n * k
}.

Lemma dwta_New_spec log2 numHashes n g :
  0 <= numHashes -> 8 * numHashes < 2^53 -> 0 < n <= 2^53 ->
  exists dw g', dwta_New log2 numHashes n g = Ok (dw, g') /\
    dwta_good dw numHashes n (wta_ceil numHashes n) /\
    dh_logNumHash (dw_d dw) = int_of_f (log2 (f_of_Z numHashes)) /\
    (let '(r0, r1) := dh_randHash (dw_d dw) in
     Forall (fun r => 0 < r <= maxInt64 /\ Z.odd r = true) [r0; r1; dh_randa (dw_d dw)]).
Proof.
  intros H1 H2 H3. unfold dwta_New. rewrite wta_permute_ceil by done.
  pose proof (wta_ceil_bounds numHashes n H1 H2 H3) as [Hc0 Hc].
  set (k := wta_ceil numHashes n) in *. unfold make_slice.
  rewrite !wrap64_small by (unfold in_int64, minInt64, maxInt64; lia).
  replace (n <? 0) with false by lia. replace (n * k <? 0) with false by lia.
  cbn [mbind res_bind]. rewrite replicate_length, Z2Nat.id by lia.
  destruct (dwta_fold_spec n k g) as (nA & ix & pos & g' & perms & HE & HT & HL); [lia..|].
  rewrite HE. cbn [mbind res_bind]. unfold dh_New.
  destruct (positiveOddRandomInt g') as [r0 g1] eqn:E0.
  destruct (positiveOddRandomInt g1) as [r1 g2] eqn:E1.
  destruct (positiveOddRandomInt g2) as [ra g3] eqn:E2.
  apply positiveOddRandomInt_spec in E0, E1, E2.
  do 2 eexists. split; [reflexivity|]. split; [|split; [done|]].
  - split; simpl; [done|done|done|eauto|lia].
  - simpl. repeat constructor; tauto.
Qed.

Lemma dtab_flat_unique ix pos n k perms s :
  0 < n -> dtab ix pos n k perms -> Z.of_nat (length perms) = k -> 0 <= s < n * k ->
  exists p f, 0 <= p < k /\ 0 <= f < n /\
    ix !! Z.to_nat (p * n + f) = Some (s / 8) /\ pos !! Z.to_nat (p * n + f) = Some (s mod 8) /\
    forall p' f', 0 <= p' < k -> 0 <= f' < n ->
      ix !! Z.to_nat (p' * n + f') = Some (s / 8) -> pos !! Z.to_nat (p' * n + f') = Some (s mod 8) ->
      p' = p /\ f' = f.
Proof.
  intros Hn (H1 & H2 & HF & HT) HL Hs.
  pose proof (Z.div_mod s n ltac:(lia)) as HD. pose proof (Z.mod_pos_bound s n Hn) as HM.
  assert (Hp : 0 <= s / n < k). { split; [apply Z.div_pos; lia|apply Z.div_lt_upper_bound; lia]. }
  destruct (lookup_lt_is_Some_2 perms (Z.to_nat (s / n))) as [l Hl]; [lia|].
  pose proof (Forall_lookup_1 _ _ _ _ HF Hl) as Hlp.
  pose proof (Permutation_seqZ_length l n ltac:(lia) Hlp) as Hll.
  destruct (lookup_lt_is_Some_2 l (Z.to_nat (s mod n))) as [v Hv]; [lia|].
  assert (Hvr : 0 <= v < n).
  { pose proof (elem_of_list_lookup_2 _ _ _ Hv) as Hin. rewrite Hlp in Hin. apply elem_of_seqZ in Hin. lia. }
  pose proof (HT _ _ _ _ Hl Hv) as [Ha Hb].
  replace (Z.of_nat (Z.to_nat (s / n))) with (s / n) in * by lia.
  replace (s / n * n + Z.of_nat (Z.to_nat (s mod n))) with s in * by lia.
  exists (s / n), v. do 4 (split; [done|]).
  intros p' f' Hp' Hf' Ha' Hb'.
  destruct (lookup_lt_is_Some_2 perms (Z.to_nat p')) as [l' Hl']; [lia|].
  pose proof (Forall_lookup_1 _ _ _ _ HF Hl') as Hlp'.
  assert (f' ∈ l') as Hin by (rewrite Hlp'; apply elem_of_seqZ; lia).
  apply elem_of_list_lookup in Hin as [j Hj].
  pose proof (Permutation_seqZ_length l' n ltac:(lia) Hlp') as Hll'.
  pose proof (lookup_lt_Some _ _ _ Hj) as Hjl.
  pose proof (HT _ _ _ _ Hl' Hj) as [Ha2 Hb2].
  replace (Z.of_nat (Z.to_nat p')) with p' in * by lia.
  rewrite Ha' in Ha2. rewrite Hb' in Hb2. injection Ha2 as Ha2. injection Hb2 as Hb2.
  pose proof (Z.div_mod s 8 ltac:(lia)) as HD1.
  pose proof (Z.div_mod (p' * n + Z.of_nat j) 8 ltac:(lia)) as HD2.
  assert (Hse : s = p' * n + Z.of_nat j) by lia.
  assert (p' = s / n) as -> by (apply (Z.div_unique s n p' (Z.of_nat j)); lia).
  split; [done|].
  assert (Z.to_nat (s mod n) = j) as <- by lia.
  rewrite Hl in Hl'. injection Hl' as <-. rewrite Hv in Hj. by injection Hj.
Qed.

(** entries exist and are in range *)
Lemma dtab_entry ix pos n k perms p f :
  0 < n -> dtab ix pos n k perms -> Z.of_nat (length perms) = k -> 0 <= p < k -> 0 <= f < n ->
  exists s, 0 <= s < n * k /\
    ix !! Z.to_nat (p * n + f) = Some (s / 8) /\ pos !! Z.to_nat (p * n + f) = Some (s mod 8).
Proof.
  intros Hn (H1 & H2 & HF & HT) HL Hp Hf.
  destruct (lookup_lt_is_Some_2 perms (Z.to_nat p)) as [l Hl]; [lia|].
  pose proof (Forall_lookup_1 _ _ _ _ HF Hl) as Hlp.
  assert (f ∈ l) as Hin by (rewrite Hlp; apply elem_of_seqZ; lia).
  apply elem_of_list_lookup in Hin as [j Hj].
  pose proof (Permutation_seqZ_length l n ltac:(lia) Hlp) as Hll.
  pose proof (lookup_lt_Some _ _ _ Hj) as Hjl.
  pose proof (HT _ _ _ _ Hl Hj) as [Ha Hb].
  replace (Z.of_nat (Z.to_nat p)) with p in * by lia.
  exists (p * n + Z.of_nat j). split; [nia|done].
Qed.

Lemma dwta_tables log2 numHashes n g :
  0 <= numHashes -> 8 * numHashes < 2^53 -> 0 < n <= 2^53 ->
  exists dw g', dwta_New log2 numHashes n g = Ok (dw, g') /\
    dw_permute dw = (8 * numHashes + n - 1) / n /\
    forall b q, 0 <= b < numHashes -> 0 <= q < 8 ->
    exists p f, 0 <= p < dw_permute dw /\ 0 <= f < n /\
      dw_indices dw !! Z.to_nat (p * n + f) = Some b /\ dw_pos dw !! Z.to_nat (p * n + f) = Some q /\
      forall p' f', 0 <= p' < dw_permute dw -> 0 <= f' < n ->
        dw_indices dw !! Z.to_nat (p' * n + f') = Some b -> dw_pos dw !! Z.to_nat (p' * n + f') = Some q ->
        p' = p /\ f' = f.
Proof.
  intros H1 H2 H3.
  destruct (dwta_New_spec log2 numHashes n g H1 H2 H3) as (dw & g' & HE & HG & _ & _).
  exists dw, g'. split; [done|]. destruct HG as [_ _ Hk (perms & HT & HL) Hpos].
  split; [done|]. intros b q Hb Hq. rewrite Hk.
  assert (Hn : 0 < n) by lia.
  destruct (dtab_flat_unique _ _ _ _ _ (8 * b + q) Hn HT HL) as (p & f & HH); [lia|].
  replace ((8 * b + q) / 8) with b in HH.
  2:{ apply (Z.div_unique _ 8 b q); lia. }
  replace ((8 * b + q) mod 8) with q in HH.
  2:{ apply (Z.mod_unique _ 8 b q); lia. }
  by exists p, f.
Qed.

(** ** generic scan *)
Lemma scan_generic {S C X} (F : S -> X -> res S) (Inv : S -> Prop) (cell : S -> nat -> option C)
    (g : C -> Z * float64 -> C) (hit : nat -> X -> option (Z * float64)) (H : nat) (L : list X) s :
  Inv s ->
  (forall s x, Inv s -> x ∈ L -> exists s', F s x = Ok s' /\ Inv s' /\
     forall b, (b < H)%nat -> cell s' b =
       match hit b x with Some qv => option_map (fun c => g c qv) (cell s b) | None => cell s b end) ->
  exists s', foldM F s L = Ok s' /\ Inv s' /\
    forall b, (b < H)%nat -> cell s' b = option_map (fold_left g (omap (hit b) L)) (cell s b).
Proof.
  intros Hs Hstep. revert s Hs.
  induction L as [|x L IH]; intros s Hs; simpl.
  - exists s. split; [done|]. split; [done|]. intros b _. by destruct (cell s b).
  - destruct (Hstep s x Hs) as (s1 & -> & Hs1 & Hc1); [by left|].
    destruct (IH) with (s := s1) as (s2 & HE & Hs2 & Hc2); [|done|].
    { intros s' x' ? ?. apply Hstep; [done|by right]. }
    exists s2. split; [done|]. split; [done|]. intros b Hb. rewrite Hc2, Hc1 by done.
    destruct (hit b x) as [qv|]; destruct (cell s b); done.
Qed.

Lemma foldM_nested {S A B} (f : A -> S -> B -> res S) (ps : list A) (xs : list B) s :
  foldM (fun s p => foldM (f p) s xs) s ps
  = foldM (fun s px => f px.1 s px.2) s (flat_map (fun p => map (fun x => (p, x)) xs) ps).
Proof.
  revert s. induction ps as [|p ps IH]; intros s; simpl; [done|].
  rewrite foldM_app.
  assert (HH : forall s, foldM (fun s px => f px.1 s px.2) s (map (fun x => (p, x)) xs) = foldM (f p) s xs).
  { clear. induction xs as [|x xs IH]; intros s; simpl; [done|]. destruct (f p s x); [apply IH|done]. }
  rewrite HH. destruct (foldM (f p) s xs); [apply IH|done].
Qed.

(** which (position in bin, value) the visit of table cell (p, i) contributes to bin [b] *)
Definition hit_of (ix pos : list Z) (n : Z) (b : nat) (x : Z * (Z * float64)) : option (Z * float64) :=
  match ix !! Z.to_nat (x.1 * n + x.2.1), pos !! Z.to_nat (x.1 * n + x.2.1) with
  | Some b', Some q => if decide (b' = Z.of_nat b) then Some (q, x.2.2) else None
  | _, _ => None
  end.

Lemma omap_map {A B C} (f : B -> option C) (g : A -> B) (xs : list A) : omap f (map g xs) = omap (fun x => f (g x)) xs.
Proof. apply list_omap_ext. apply Forall2_fmap_l. by apply Forall_Forall2_diag, Forall_true. Qed.
Lemma omap_ext' {A B} (f g : A -> option B) (xs : list A) :
  (forall x, x ∈ xs -> f x = g x) -> omap f xs = omap g xs.
Proof. intros H. apply list_omap_ext, Forall_Forall2_diag, Forall_forall. done. Qed.

Lemma indexed_as_map {A} (xs : list A) :
  map (fun i => (Z.of_nat i, xs !! i)) (seq 0 (length xs)) = map (fun ix => (ix.1, Some ix.2)) (indexed xs).
Proof.
  apply list_eq. intros i. rewrite !list_lookup_fmap.
  destruct (indexed xs !! i) as [[j x]|] eqn:E.
  - apply indexed_lookup in E as [-> Hx]. rewrite lookup_seq_lt by (by eapply lookup_lt_Some).
    simpl. by rewrite Hx.
  - apply lookup_ge_None in E. rewrite indexed_length in E. by rewrite lookup_seq_ge.
Qed.

Lemma bin_entries_scan ix pos k n vals (b : nat) :
  bin_entries ix pos k n vals (Z.of_nat b) =
  omap (hit_of ix pos n b) (flat_map (fun p => map (fun x => (p, x)) (indexed vals)) (seqZ 0 k)).
Proof.
  unfold bin_entries. induction (seqZ 0 k) as [|p ps IH]; simpl; [done|].
  rewrite omap_app, IH. f_equal. rewrite omap_map. unfold hit_of. simpl.
  transitivity (omap (fun z => match ix !! Z.to_nat (p * n + z.1), pos !! Z.to_nat (p * n + z.1), z.2 with
        | Some b', Some q, Some v => if decide (b' = Z.of_nat b) then Some (q, v) else None
        | _, _, _ => None
        end) (map (fun i => (Z.of_nat i, vals !! i)) (seq 0 (length vals)))).
  { by rewrite omap_map. }
  rewrite indexed_as_map, omap_map. apply omap_ext'. intros [i v] _. simpl. done.
Qed.

Lemma scan_list_range k vals p i v :
  (p, (i, v)) ∈ flat_map (fun p => map (fun x => (p, x)) (indexed (A := float64) vals)) (seqZ 0 k) ->
  0 <= p < k /\ 0 <= i < Z.of_nat (length vals).
Proof.
  intros H%elem_of_list_In%in_flat_map. destruct H as (p' & Hp & Hx).
  apply elem_of_list_In, elem_of_seqZ in Hp. apply in_map_iff in Hx as ([i' v'] & [= <- <- <-] & Hx).
  apply elem_of_list_In, elem_of_indexed in Hx as [Hi Hv]. apply lookup_lt_Some in Hv. lia.
Qed.

(** ** GetHashEasy *)
Definition cell2 (s : list Z * list float64) (b : nat) : option (Z * float64) :=
  match s.1 !! b, s.2 !! b with Some h, Some v => Some (h, v) | _, _ => None end.

Lemma dwta_easy_scan dw numHashes n k data :
  dwta_good dw numHashes n k -> Z.of_nat (length data) <= n ->
  exists hs vs,
    foldM (fun st p => foldM (dwta_scan_easy dw p) st (indexed data))
      (replicate (Z.to_nat numHashes) minInt64, replicate (Z.to_nat numHashes) fMinInt64) (seqZ 0 k) = Ok (hs, vs) /\
    Z.of_nat (length hs) = numHashes /\
    forall b : nat, Z.of_nat b < numHashes ->
      hs !! b = Some (fold_left amax_step (bin_entries (dw_indices dw) (dw_pos dw) k n data (Z.of_nat b))
                        (minInt64, fMinInt64)).1.
Proof.
  intros HG Hdata. destruct HG as [Hnum Hn Hk (perms & HT & HL) Hp].
  rewrite foldM_nested.
  set (L := flat_map _ _).
  destruct (scan_generic (fun s px => dwta_scan_easy dw px.1 s px.2)
     (fun s => Z.of_nat (length s.1) = numHashes /\ Z.of_nat (length s.2) = numHashes)
     cell2 amax_step (hit_of (dw_indices dw) (dw_pos dw) n) (Z.to_nat numHashes) L
     (replicate (Z.to_nat numHashes) minInt64, replicate (Z.to_nat numHashes) fMinInt64))
   as ([hs vs] & HE & [Hl1 Hl2] & Hc).
  - simpl. rewrite !replicate_length. lia.
  - intros [hs vs] [p [i v]] [Hl1 Hl2] Hin. apply scan_list_range in Hin as [Hpk Hi].
    assert (Hn0 : 0 < n) by lia.
    destruct (dtab_entry _ _ _ _ _ p i Hn0 HT HL) as (s & Hs & Hix & Hpos); [lia..|].
    assert (Hpi : 0 <= p * n + i) by nia.
    cbn [fst snd] in *. unfold dwta_scan_easy. rewrite Hn, Hnum.
    assert (sget (dw_indices dw) (p * n + i) = Ok (s / 8)) as -> by (by apply sget_Ok).
    assert (sget (dw_pos dw) (p * n + i) = Ok (s mod 8)) as -> by (by apply sget_Ok).
    cbn [mbind res_bind]. 
    assert (Hs8 : 0 <= s / 8) by (apply Z.div_pos; lia).
    unfold hit_of. cbn [fst snd]. rewrite Hix, Hpos.
    destruct (Z.ltb_spec (s / 8) numHashes) as [Hlt|Hge].
    + destruct (sget_total vs (s / 8)) as (w & Hw & Hw'); [lia|]. rewrite Hw. cbn [mbind res_bind].
      destruct (sget_total hs (s / 8)) as (h & _ & Hh'); [lia|].
      destruct (fltb w v) eqn:Ew.
      * rewrite sset_total by lia. cbn [mbind res_bind]. rewrite sset_total by lia. cbn [mbind res_bind].
        eexists; split; [reflexivity|]. cbn [fst snd]. rewrite !insert_length. split; [done|].
        intros b Hb. unfold cell2. cbn [fst snd]. case_decide as Hd.
        -- rewrite Hd, Nat2Z.id in *. rewrite !list_lookup_insert by lia. rewrite Hw', Hh'. simpl.
           unfold amax_step. simpl. by rewrite Ew.
        -- rewrite !list_lookup_insert_ne by lia. done.
      * eexists; split; [reflexivity|]. split; [done|]. intros b Hb. unfold cell2. cbn [fst snd].
        case_decide as Hd; [|done].
        rewrite Hd, Nat2Z.id in *. rewrite Hw', Hh'. simpl. unfold amax_step. simpl. by rewrite Ew.
    + eexists; split; [reflexivity|]. split; [done|]. intros b Hb. case_decide; [lia|done].
  - exists hs, vs. split; [done|]. split; [done|]. intros b Hb. specialize (Hc b ltac:(lia)).
    unfold cell2 in Hc. cbn [fst snd] in *.
    rewrite !lookup_replicate_2 in Hc by lia. cbn [option_map] in Hc.
    rewrite bin_entries_scan. fold L.
    destruct (hs !! b) as [h|], (vs !! b) as [v|]; try done. injection Hc as Hc. by rewrite <- Hc.
Qed.

(** bins of the table have positions 0..7 *)
Lemma bin_entries_in dw numHashes n k data b q v :
  dwta_good dw numHashes n k -> (q, v) ∈ bin_entries (dw_indices dw) (dw_pos dw) k n data b ->
  exists (p : Z) (i : nat), 0 <= p < k /\ data !! i = Some v /\
    dw_indices dw !! Z.to_nat (p * n + Z.of_nat i) = Some b /\
    dw_pos dw !! Z.to_nat (p * n + Z.of_nat i) = Some q.
Proof.
  intros _ Hin. unfold bin_entries in Hin. apply elem_of_list_In, in_flat_map in Hin as (p & Hp & Hin).
  apply elem_of_list_In, elem_of_seqZ in Hp. apply elem_of_list_In, elem_of_list_omap in Hin as (i & Hi & HE).
  destruct (dw_indices dw !! _) as [b'|] eqn:E1; [|done].
  destruct (dw_pos dw !! _) as [q'|] eqn:E2; [|done].
  destruct (data !! i) as [v'|] eqn:E3; [|done].
  case_decide; [|done]. injection HE as -> ->. subst b'. exists p, i. split; [lia|done].
Qed.

Lemma bin_entries_pos dw numHashes n k data b q v :
  dwta_good dw numHashes n k -> Z.of_nat (length data) <= n ->
  (q, v) ∈ bin_entries (dw_indices dw) (dw_pos dw) k n data b -> 0 <= q < 8.
Proof.
  intros HG Hd Hin. destruct (bin_entries_in _ _ _ _ _ _ _ _ HG Hin) as (p & i & Hp & Hi & Hb & Hq).
  destruct HG as [_ _ _ (perms & HT & HL) Hpos]. apply lookup_lt_Some in Hi.
  assert (Hn0 : 0 < n) by lia.
  destruct (dtab_entry _ _ _ _ _ p (Z.of_nat i) Hn0 HT HL) as (s & Hs & Hix & Hps); [lia..|].
  rewrite Hq in Hps. injection Hps as ->. apply Z.mod_pos_bound. lia.
Qed.

Lemma amax_result_pos dw numHashes n k data b :
  dwta_good dw numHashes n k -> Z.of_nat (length data) <= n ->
  let r := (fold_left amax_step (bin_entries (dw_indices dw) (dw_pos dw) k n data b) (minInt64, fMinInt64)).1 in
  (r = minInt64 /\ none_above fMinInt64 (bin_entries (dw_indices dw) (dw_pos dw) k n data b).*2) \/
  (0 <= r < 8 /\ exists q v, first_max fMinInt64 (bin_entries (dw_indices dw) (dw_pos dw) k n data b).*2 q /\
     bin_entries (dw_indices dw) (dw_pos dw) k n data b !! q = Some (r, v)).
Proof.
  intros HG Hd. cbv zeta. set (es := bin_entries _ _ _ _ _ _).
  destruct (amax_spec minInt64 fMinInt64 es) as [[Hn ->]|(q & Hq & Hr)]; [by left|].
  right. destruct (fold_left amax_step es (minInt64, fMinInt64)) as [h v]. cbn [fst]. split.
  - eapply bin_entries_pos; [done|done|]. by eapply elem_of_list_lookup_2.
  - by exists q, v.
Qed.

(** the complete description of GetHashEasy *)
Lemma dwta_GetHashEasy_spec dw numHashes n k data topK :
  dwta_good dw numHashes n k -> 0 <= dh_logNumHash (dw_d dw) <= 31 -> Z.of_nat (length data) <= n ->
  let entries b := bin_entries (dw_indices dw) (dw_pos dw) k n data b in
  let empty b := none_above fMinInt64 (entries b).*2 in
  exists hs, dwta_GetHashEasy dw data topK = Ok hs /\ Z.of_nat (length hs) = numHashes /\
    Forall (fun h => 0 <= h < 8) hs /\
    forall b : nat, Z.of_nat b < numHashes ->
      (exists q h v, first_max fMinInt64 (entries (Z.of_nat b)).*2 q /\
         entries (Z.of_nat b) !! q = Some (h, v) /\ hs !! b = Some h) \/
      (empty (Z.of_nat b) /\ exists b', 0 <= b' < numHashes /\
         borrows_from (dw_d dw) empty (Z.of_nat b) b' /\ hs !! b = hs !! Z.to_nat b') \/
      (empty (Z.of_nat b) /\ borrows_nothing (dw_d dw) empty (Z.of_nat b) /\ hs !! b = Some 0).
Proof.
  intros HG Hlog Hd entries empty.
  destruct (dwta_easy_scan dw numHashes n k data HG Hd) as (h0 & v0 & HE & Hl0 & Hcell).
  unfold dwta_GetHashEasy, make_slice. rewrite (dg_num _ _ _ _ HG), (dg_k _ _ _ _ HG).
  pose proof (dg_pos _ _ _ _ HG) as Hpos.
  replace (numHashes <? 0) with false by lia. cbn [mbind res_bind]. rewrite HE. cbn [mbind res_bind].
  destruct (densify_spec (dw_d dw) (fun h => h =? minInt64) (fun _ => 0) h0) as (out & HO & HlO & Hout).
  { done. } { by rewrite (dg_num _ _ _ _ HG). }
  assert (Hcase : forall (b : nat) it, h0 !! b = Some it -> 
     (it = minInt64 /\ empty (Z.of_nat b)) \/
     (0 <= it < 8 /\ exists q v, first_max fMinInt64 (entries (Z.of_nat b)).*2 q /\
        entries (Z.of_nat b) !! q = Some (it, v))).
  { intros b it Hb. pose proof (lookup_lt_Some _ _ _ Hb) as Hlt.
    rewrite Hcell in Hb by lia. injection Hb as <-.
    exact (amax_result_pos dw numHashes n k data (Z.of_nat b) HG Hd). }
  assert (Hempty : forall ix, 0 <= ix < numHashes -> (empty_at (fun h => h =? minInt64) h0 ix <-> empty ix)).
  { intros ix Hix. destruct (lookup_lt_is_Some_2 h0 (Z.to_nat ix)) as [it Hit]; [lia|].
    destruct (Hcase _ _ Hit) as [[-> He]|(Hr & q & v & Hq & _)]; rewrite Z2Nat.id in * by lia.
    - split; [done|]. intros _. exists minInt64. split; [done|]. lia.
    - split.
      + intros (it' & Hit' & He'). rewrite Hit in Hit'. injection Hit' as <-. unfold minInt64 in He'. lia.
      + intros He. exfalso. by eapply first_max_not_none. }
  assert (Hprobe : forall i c ix, probes (dw_d dw) i c ix -> 1 <= numHashes -> 0 <= ix < numHashes).
  { intros i c ix Hp Hn1. destruct (probe_index_ok (dw_d dw) i c) as (ix' & _ & Hp' & Hr); [done| |].
    { by rewrite (dg_num _ _ _ _ HG). }
    rewrite (probes_functional _ _ _ _ _ Hp Hp'). by rewrite (dg_num _ _ _ _ HG) in Hr. }
  exists out. split; [done|]. split; [lia|]. split.
  { apply Forall_lookup. intros i o Ho.
    destruct (lookup_lt_is_Some_2 h0 i) as [it Hit]; [rewrite <- HlO; by eapply lookup_lt_Some|].
    destruct (Hout _ _ Hit) as (o' & Ho' & HH). rewrite Ho in Ho'. injection Ho' as <-.
    destruct HH as [[He ->]|[(He & ix & Hix & _ & Hit' & Heo)|(He & _ & ix & x & _ & _ & _ & ->)]]; [| |lia].
    - destruct (Hcase _ _ Hit) as [[-> _]|[? _]]; [unfold minInt64 in He; lia|done].
    - destruct (Hcase _ _ Hit') as [[-> _]|[? _]]; [unfold minInt64 in Heo; lia|done]. }
  intros b Hb.
  destruct (lookup_lt_is_Some_2 h0 b) as [it Hit]; [lia|].
  destruct (Hout _ _ Hit) as (o & Ho & HH).
  destruct HH as [[He ->]|[(He & ix & Hix & (c & Hc & Hp & Hne & Hbef) & Hit' & Heo)|(He & Hall & ix & x & _ & _ & _ & ->)]].
  - left. destruct (Hcase _ _ Hit) as [[-> _]|(_ & q & v & Hq & Hent)]; [unfold minInt64 in He; lia|].
    exists q, it, v. done.
  - right. left. rewrite (dg_num _ _ _ _ HG) in Hix. split.
    { destruct (Hcase _ _ Hit) as [[_ Hemp]|[Hr _]]; [done|unfold minInt64 in He; lia]. }
    exists ix. split; [done|]. split.
    + exists c. split; [done|]. split; [done|]. split; [by rewrite <- Hempty|].
      intros c' Hc'. destruct (Hbef c' Hc') as (ix' & Hp' & He'). exists ix'. split; [done|].
      apply Hempty; [|done]. eapply Hprobe; [done|lia].
    + rewrite Ho. destruct (Hout _ _ Hit') as (o2 & Ho2 & HH2). rewrite Ho2.
      destruct HH2 as [[_ ->]|[[? _]|[? _]]]; congruence.
  - right. right. split.
    { destruct (Hcase _ _ Hit) as [[_ Hemp]|[Hr _]]; [done|unfold minInt64 in He; lia]. }
    split; [|done]. intros c Hc. destruct (Hall c Hc) as (ix' & Hp' & He'). exists ix'. split; [done|].
    apply Hempty; [|done]. eapply Hprobe; [done|lia].
Qed.

(** ** GetHash *)
Definition it_step (it : item) (qv : Z * float64) : item :=
  if negb (it_init it) || fltb (it_value it) qv.2
  then {| it_hash := qv.1; it_value := qv.2; it_init := true |} else it.

Definition it0 : item := {| it_hash := 0; it_value := fzero; it_init := false |}.

Lemma it_fold_amax es q v :
  fold_left it_step es {| it_hash := q; it_value := v; it_init := true |}
  = let r := fold_left amax_step es (q, v) in {| it_hash := r.1; it_value := r.2; it_init := true |}.
Proof.
  revert q v. induction es as [|[q' v'] es IH]; intros q v; simpl; [done|].
  unfold it_step at 2, amax_step at 2 4. simpl. destruct (fltb v v'); apply IH.
Qed.

Lemma amax_nan {L} (l : L) es : fold_left amax_step es (l, S754_nan) = (l, S754_nan).
Proof. induction es as [|[l' v'] es IH]; simpl; done. Qed.

Lemma it_fold_spec es :
  (es = [] /\ fold_left it_step es it0 = it0) \/
  (exists q h v, es !! q = Some (h, v) /\ sticky_max es.*2 q /\
     fold_left it_step es it0 = {| it_hash := h; it_value := v; it_init := true |}).
Proof.
  destruct es as [|[h0 v0] es]; [by left|]. right. cbn [fold_left].
  unfold it_step at 2. cbn [it0 it_init negb orb fst snd]. rewrite it_fold_amax. cbv zeta.
  destruct (is_nan v0) eqn:Enan.
  - destruct v0; try done. rewrite amax_nan. exists O, h0, S754_nan. split; [done|]. split; [|done].
    exists S754_nan. split; [done|]. done.
  - destruct (amax_spec h0 v0 es) as [[Hn ->]|(q & Hq & Hr)].
    + exists O, h0, v0. split; [done|]. split; [|done]. exists v0. split; [done|]. rewrite Enan.
      exists v0. split; [done|]. split; [done|]. split; [|intros; lia].
      intros [|q'] v'; cbn; [intros [= <-]; apply fltb_irrefl|]. apply Hn.
    + destruct (fold_left amax_step es (h0, v0)) as [h v]. cbn [fst snd].
      destruct Hq as (w & Hw & Hlo & Hmax & Hfirst).
      assert (w = v) as ->. { rewrite list_lookup_fmap, Hr in Hw. by injection Hw. }
      exists (S q), h, v. split; [done|]. split; [|done]. exists v0. split; [done|]. rewrite Enan.
      exists v. split; [done|]. split; [by apply fltb_not_nan in Hlo as [_ ?]|]. split.
      * intros [|q'] v'; cbn; [intros [= <-]; by apply fltb_asym|]. apply Hmax.
      * intros [|q'] v' Hlt; cbn; [intros [= <-]; done|]. intros Hq' Hnn.
        destruct (fltb v0 v') eqn:E; [apply (Hfirst q' v'); [lia|done|done]|].
        by apply (fltb_le_lt_trans v' v0 v).
Qed.

Lemma indexed_map {A B} (f : A -> B) xs : indexed (map f xs) = map (fun ix => (ix.1, f ix.2)) (indexed xs).
Proof.
  apply list_eq. intros i. rewrite list_lookup_fmap.
  destruct (indexed xs !! i) as [[j x]|] eqn:E; cbn.
  - apply indexed_lookup in E as [-> Hx]. apply indexed_lookup. split; [done|]. by rewrite list_lookup_fmap, Hx.
  - apply lookup_ge_None in E. rewrite indexed_length in E.
    apply lookup_ge_None. rewrite indexed_length, map_length. lia.
Qed.

Lemma scan_list_values k (data : list Pair) :
  flat_map (fun p => map (fun x => (p, x)) (indexed (map iv_value data))) (seqZ 0 k)
  = map (fun x => (x.1, (x.2.1, iv_value x.2.2)))
      (flat_map (fun p => map (fun x => (p, x)) (indexed data)) (seqZ 0 k)).
Proof.
  rewrite indexed_map. induction (seqZ 0 k) as [|p ps IH]; simpl; [done|].
  rewrite map_app, IH. f_equal. by rewrite !map_map.
Qed.

Lemma dwta_item_scan dw numHashes n k data :
  dwta_good dw numHashes n k -> Z.of_nat (length data) <= n ->
  exists items,
    foldM (fun items p => foldM (dwta_scan_item dw p) items (indexed data))
      (replicate (Z.to_nat numHashes) it0) (seqZ 0 k) = Ok items /\
    Z.of_nat (length items) = numHashes /\
    forall b : nat, Z.of_nat b < numHashes ->
      items !! b = Some (fold_left it_step
        (bin_entries (dw_indices dw) (dw_pos dw) k n (map iv_value data) (Z.of_nat b)) it0).
Proof.
  intros HG Hdata. destruct HG as [Hnum Hn Hk (perms & HT & HL) Hp].
  rewrite foldM_nested.
  set (L := flat_map _ _).
  destruct (scan_generic (fun s px => dwta_scan_item dw px.1 s px.2)
     (fun s => Z.of_nat (length s) = numHashes) (fun s b => s !! b) it_step
     (fun b x => hit_of (dw_indices dw) (dw_pos dw) n b (x.1, (x.2.1, iv_value x.2.2)))
     (Z.to_nat numHashes) L (replicate (Z.to_nat numHashes) it0))
   as (items & HE & Hl & Hc).
  - rewrite replicate_length. lia.
  - intros items [p [i pr]] Hl Hin.
    assert (Hr : 0 <= p < k /\ 0 <= i < Z.of_nat (length data)).
    { assert (HH : (p, (i, iv_value pr)) ∈ flat_map (fun p => map (fun x => (p, x)) (indexed (map iv_value data))) (seqZ 0 k)).
      { rewrite scan_list_values. apply elem_of_list_fmap. by exists (p, (i, pr)). }
      apply scan_list_range in HH. by rewrite map_length in HH. }
    destruct Hr as [Hpk Hi]. assert (Hn0 : 0 < n) by lia.
    destruct (dtab_entry _ _ _ _ _ p i Hn0 HT HL) as (s & Hs & Hix & Hpos); [lia..|].
    assert (Hpi : 0 <= p * n + i) by nia.
    cbn [fst snd] in *. unfold dwta_scan_item. rewrite Hn, Hnum.
    assert (sget (dw_indices dw) (p * n + i) = Ok (s / 8)) as -> by (by apply sget_Ok).
    assert (sget (dw_pos dw) (p * n + i) = Ok (s mod 8)) as -> by (by apply sget_Ok).
    cbn [mbind res_bind].
    assert (Hs8 : 0 <= s / 8) by (apply Z.div_pos; lia).
    unfold hit_of. cbn [fst snd]. rewrite Hix, Hpos.
    destruct (Z.ltb_spec (s / 8) numHashes) as [Hlt|Hge].
    + destruct (sget_total items (s / 8)) as (it & Hit & Hit'); [lia|]. rewrite Hit. cbn [mbind res_bind].
      destruct (negb (it_init it) || fltb (it_value it) (iv_value pr)) eqn:Ew.
      * rewrite sset_total by lia. eexists; split; [reflexivity|]. rewrite insert_length. split; [done|].
        intros b Hb. case_decide as Hd.
        -- rewrite Hd, Nat2Z.id in *. rewrite list_lookup_insert by lia. rewrite Hit'. simpl.
           unfold it_step. simpl. by rewrite Ew.
        -- rewrite list_lookup_insert_ne by lia. done.
      * eexists; split; [reflexivity|]. split; [done|]. intros b Hb.
        case_decide as Hd; [|done].
        rewrite Hd, Nat2Z.id in *. rewrite Hit'. simpl. unfold it_step. simpl. by rewrite Ew.
    + eexists; split; [reflexivity|]. split; [done|]. intros b Hb. case_decide; [lia|done].
  - exists items. split; [done|]. split; [done|]. intros b Hb. rewrite Hc by lia.
    rewrite lookup_replicate_2 by lia. cbn [option_map]. do 2 f_equal.
    rewrite bin_entries_scan, scan_list_values, omap_map. done.
Qed.

Lemma dwta_GetHash_spec dw numHashes n k data :
  dwta_good dw numHashes n k -> 0 <= dh_logNumHash (dw_d dw) <= 31 -> Z.of_nat (length data) <= n ->
  let entries b := bin_entries (dw_indices dw) (dw_pos dw) k n (map iv_value data) b in
  let empty b := entries b = [] in
  exists hs, dwta_GetHash dw data = Ok hs /\ Z.of_nat (length hs) = numHashes /\
    Forall (fun h => 0 <= h < 8) hs /\
    forall b : nat, Z.of_nat b < numHashes ->
      (exists q h v, sticky_max (entries (Z.of_nat b)).*2 q /\
         entries (Z.of_nat b) !! q = Some (h, v) /\ hs !! b = Some h) \/
      (empty (Z.of_nat b) /\ exists b', 0 <= b' < numHashes /\
         borrows_from (dw_d dw) empty (Z.of_nat b) b' /\ hs !! b = hs !! Z.to_nat b') \/
      (empty (Z.of_nat b) /\ borrows_nothing (dw_d dw) empty (Z.of_nat b) /\ hs !! b = Some 0).
Proof.
  intros HG Hlog Hd entries empty.
  destruct (dwta_item_scan dw numHashes n k data HG Hd) as (h0 & HE & Hl0 & Hcell).
  unfold dwta_GetHash, make_slice. rewrite (dg_num _ _ _ _ HG), (dg_k _ _ _ _ HG).
  pose proof (dg_pos _ _ _ _ HG) as Hpos. fold it0.
  replace (numHashes <? 0) with false by lia. cbn [mbind res_bind]. rewrite HE. cbn [mbind res_bind].
  destruct (densify_spec (dw_d dw) (fun it => negb (it_init it))
     (fun it => {| it_hash := 0; it_value := it_value it; it_init := it_init it |}) h0) as (out & HO & HlO & Hout).
  { done. } { by rewrite (dg_num _ _ _ _ HG). }
  rewrite HO. cbn [mbind res_bind].
  assert (Hcase : forall (b : nat) it, h0 !! b = Some it ->
     (it_init it = false /\ empty (Z.of_nat b)) \/
     (it_init it = true /\ 0 <= it_hash it < 8 /\ exists q, sticky_max (entries (Z.of_nat b)).*2 q /\
        entries (Z.of_nat b) !! q = Some (it_hash it, it_value it))).
  { intros b it Hb. pose proof (lookup_lt_Some _ _ _ Hb) as Hlt.
    rewrite Hcell in Hb by lia. injection Hb as <-.
    destruct (it_fold_spec (entries (Z.of_nat b))) as [[He Hf]|(q & h & v & Hq & Hs & Hf)];
      unfold entries in Hf; rewrite Hf; [by left|].
    right. cbn [it_hash it_value it_init]. split; [done|]. split; [|by exists q].
    eapply bin_entries_pos; [done| |by eapply elem_of_list_lookup_2]. by rewrite map_length. }
  assert (Hempty : forall ix, 0 <= ix < numHashes -> (empty_at (fun it => negb (it_init it)) h0 ix <-> empty ix)).
  { intros ix Hix. destruct (lookup_lt_is_Some_2 h0 (Z.to_nat ix)) as [it Hit]; [lia|].
    destruct (Hcase _ _ Hit) as [[Hi He]|(Hi & Hr & q & Hq & Hq')]; rewrite Z2Nat.id in * by lia.
    - split; [done|]. intros _. exists it. split; [done|]. by rewrite Hi.
    - split.
      + intros (it' & Hit' & He'). rewrite Hit in Hit'. injection Hit' as <-. by rewrite Hi in He'.
      + intros He. unfold empty in He. by rewrite He in Hq'. }
  assert (Hprobe : forall i c ix, probes (dw_d dw) i c ix -> 1 <= numHashes -> 0 <= ix < numHashes).
  { intros i c ix Hp Hn1. destruct (probe_index_ok (dw_d dw) i c) as (ix' & _ & Hp' & Hr); [done| |].
    { by rewrite (dg_num _ _ _ _ HG). }
    rewrite (probes_functional _ _ _ _ _ Hp Hp'). by rewrite (dg_num _ _ _ _ HG) in Hr. }
  assert (Hni : forall b, negb b = false -> b = true) by (by intros []).
  exists (map it_hash out). split; [done|]. split; [rewrite map_length; lia|]. split.
  { apply Forall_lookup. intros i o Ho. apply list_lookup_fmap_Some in Ho as (o' & Ho' & ->).
    destruct (lookup_lt_is_Some_2 h0 i) as [it Hit]; [rewrite <- HlO; by eapply lookup_lt_Some|].
    destruct (Hout _ _ Hit) as (o2 & Ho2 & HH). rewrite Ho' in Ho2. injection Ho2 as <-.
    destruct HH as [[He ->]|[(He & ix & Hix & _ & Hit' & Heo)|(He & _ & ix & x & _ & _ & _ & ->)]]; [| |cbn; lia].
    - destruct (Hcase _ _ Hit) as [[Hi _]|(_ & ? & _)]; [by rewrite Hi in He|done].
    - destruct (Hcase _ _ Hit') as [[Hi _]|(_ & ? & _)]; [by rewrite Hi in Heo|done]. }
  intros b Hb.
  destruct (lookup_lt_is_Some_2 h0 b) as [it Hit]; [lia|].
  destruct (Hout _ _ Hit) as (o & Ho & HH).
  destruct HH as [[He ->]|[(He & ix & Hix & (c & Hc & Hp & Hne & Hbef) & Hit' & Heo)|(He & Hall & ix & x & _ & _ & _ & ->)]].
  - left. destruct (Hcase _ _ Hit) as [[Hi _]|(_ & _ & q & Hq & Hent)]; [by rewrite Hi in He|].
    exists q, (it_hash it), (it_value it). split; [done|]. split; [done|]. by rewrite list_lookup_fmap, Ho.
  - right. left. rewrite (dg_num _ _ _ _ HG) in Hix. split.
    { destruct (Hcase _ _ Hit) as [[_ Hemp]|[Hi _]]; [done|by rewrite Hi in He]. }
    exists ix. split; [done|]. split.
    + exists c. split; [done|]. split; [done|]. split; [by rewrite <- Hempty|].
      intros c' Hc'. destruct (Hbef c' Hc') as (ix' & Hp' & He'). exists ix'. split; [done|].
      apply Hempty; [|done]. eapply Hprobe; [done|lia].
    + rewrite !list_lookup_fmap, Ho. destruct (Hout _ _ Hit') as (o2 & Ho2 & HH2). rewrite Ho2.
      destruct HH2 as [[_ ->]|[[? _]|[? _]]]; [done|congruence..].
  - right. right. split.
    { destruct (Hcase _ _ Hit) as [[_ Hemp]|[Hi _]]; [done|by rewrite Hi in He]. }
    split; [|by rewrite list_lookup_fmap, Ho]. intros c Hc. destruct (Hall c Hc) as (ix' & Hp' & He'). exists ix'.
    split; [done|]. apply Hempty; [|done]. eapply Hprobe; [done|lia].
Qed.

(** ** the positions of a full bin are 0..7 *)
Lemma NoDup_omap {A B} (f : A -> option B) (l : list A) :
  NoDup l -> (forall x y z, x ∈ l -> y ∈ l -> f x = Some z -> f y = Some z -> x = y) -> NoDup (omap f l).
Proof.
  induction 1 as [|x l Hx HND IH]; intros Hinj; cbn; [constructor|].
  assert (NoDup (omap f l)) by (apply IH; intros; eapply Hinj; eauto; by right).
  destruct (f x) as [z|] eqn:E; [|done]. constructor; [|done].
  intros Hz. apply elem_of_list_omap in Hz as (y & Hy & Hfy).
  assert (x = y) as <- by (eapply Hinj; eauto; [by left|by right]). done.
Qed.

Lemma NoDup_pairs {A B} (ps : list A) (xs : list B) :
  NoDup ps -> NoDup xs -> NoDup (flat_map (fun p => map (fun x => (p, x)) xs) ps).
Proof.
  intros Hps Hxs. induction Hps as [|p ps Hp _ IH]; cbn; [constructor|].
  apply NoDup_app. split; [|split; [|done]].
  - apply NoDup_fmap_2; [|done]. by intros x y [= ->].
  - intros [p' x] Hin Hin'. apply elem_of_list_fmap in Hin as (x' & [= -> ->] & _).
    apply elem_of_list_In, in_flat_map in Hin' as (p2 & Hp2 & Hx2).
    apply in_map_iff in Hx2 as (? & [= -> _] & _). by apply Hp, elem_of_list_In.
Qed.

Definition hit_pos (ix pos : list Z) (n b : Z) (m : nat) (x : Z * nat) : option Z :=
  match ix !! Z.to_nat (x.1 * n + Z.of_nat x.2), pos !! Z.to_nat (x.1 * n + Z.of_nat x.2) with
  | Some b', Some q => if decide (b' = b /\ (x.2 < m)%nat) then Some q else None
  | _, _ => None
  end.

Lemma bin_entries_fst ix pos k n vals b :
  (bin_entries ix pos k n vals b).*1 =
  omap (hit_pos ix pos n b (length vals)) (flat_map (fun p => map (fun x => (p, x)) (seq 0 (length vals))) (seqZ 0 k)).
Proof.
  unfold bin_entries. induction (seqZ 0 k) as [|p ps IH]; [done|].
  cbn [flat_map]. rewrite fmap_app, omap_app, IH. f_equal. rewrite omap_map, list_fmap_omap.
  apply omap_ext'. intros i Hi. apply elem_of_seq in Hi.
  unfold hit_pos. cbn [fst snd].
  destruct (lookup_lt_is_Some_2 vals i) as [v ->]; [lia|].
  destruct (ix !! _) as [b'|]; [|done]. destruct (pos !! _) as [q|]; [|done].
  destruct (decide (b' = b)), (decide (b' = b /\ (i < length vals)%nat)); try done; exfalso; naive_solver lia.
Qed.

Lemma bin_entries_full dw numHashes n k data b :
  dwta_good dw numHashes n k -> Z.of_nat (length data) = n -> 0 <= b < numHashes ->
  (bin_entries (dw_indices dw) (dw_pos dw) k n data b).*1 ≡ₚ seqZ 0 8.
Proof.
  intros HG Hd Hb. pose proof HG as [_ _ _ (perms & HT & HL) Hp].
  assert (Hn0 : 0 < n) by lia.
  apply NoDup_Permutation.
  - rewrite bin_entries_fst. apply NoDup_omap.
    + apply NoDup_pairs; [apply NoDup_seqZ|apply NoDup_seq].
    + intros [p i] [p' i'] q Hin Hin'.
      apply elem_of_list_In, in_flat_map in Hin as (p1 & Hp1 & Hx1).
      apply elem_of_list_In, in_flat_map in Hin' as (p2 & Hp2 & Hx2).
      apply in_map_iff in Hx1 as (? & [= -> ->] & _). apply in_map_iff in Hx2 as (? & [= -> ->] & _).
      apply elem_of_list_In, elem_of_seqZ in Hp1. apply elem_of_list_In, elem_of_seqZ in Hp2.
      unfold hit_pos. cbn [fst snd].
      destruct (dw_indices dw !! Z.to_nat (p * n + Z.of_nat i)) as [b1|] eqn:E1; [|done].
      destruct (dw_pos dw !! Z.to_nat (p * n + Z.of_nat i)) as [q1|] eqn:E2; [|done].
      case_decide as HD1; [|done]. intros [= ->].
      destruct (dw_indices dw !! Z.to_nat (p' * n + Z.of_nat i')) as [b2|] eqn:E3; [|done].
      destruct (dw_pos dw !! Z.to_nat (p' * n + Z.of_nat i')) as [q2|] eqn:E4; [|done].
      case_decide as HD2; [|done]. intros [= ->]. destruct HD1 as [-> Hi], HD2 as [-> Hi'].
      assert (Hq : 0 <= q < 8).
      { destruct (dtab_entry _ _ _ _ _ p (Z.of_nat i) Hn0 HT HL) as (s & Hs & Hix & Hps); [lia..|].
        rewrite E2 in Hps. injection Hps as ->. apply Z.mod_pos_bound. lia. }
      destruct (dtab_flat_unique _ _ _ _ _ (8 * b + q) Hn0 HT HL) as (p0 & f0 & _ & _ & _ & _ & HU); [lia|].
      replace ((8 * b + q) / 8) with b in HU by (apply (Z.div_unique _ 8 b q); lia).
      replace ((8 * b + q) mod 8) with q in HU by (apply (Z.mod_unique _ 8 b q); lia).
      destruct (HU p (Z.of_nat i)) as [-> ?]; [lia|lia|done|done|].
      destruct (HU p' (Z.of_nat i')) as [-> ?]; [lia|lia|done|done|]. f_equal. lia.
  - apply NoDup_seqZ.
  - intros q. rewrite elem_of_seqZ. split.
    + intros Hin. apply elem_of_list_fmap in Hin as ([q' v] & -> & Hin).
      eapply bin_entries_pos in Hin; [|exact HG|lia]. cbn. lia.
    + intros Hq. destruct (dtab_flat_unique _ _ _ _ _ (8 * b + q) Hn0 HT HL) as (p0 & f0 & Hp0 & Hf0 & H1 & H2 & _); [lia|].
      replace ((8 * b + q) / 8) with b in H1 by (apply (Z.div_unique _ 8 b q); lia).
      replace ((8 * b + q) mod 8) with q in H2 by (apply (Z.mod_unique _ 8 b q); lia).
      rewrite bin_entries_fst. apply elem_of_list_omap. exists (p0, Z.to_nat f0). split.
      * apply elem_of_list_In, in_flat_map. exists p0. split; [apply elem_of_list_In, elem_of_seqZ; lia|].
        apply in_map_iff. exists (Z.to_nat f0). split; [done|]. apply elem_of_list_In, elem_of_seq. lia.
      * unfold hit_pos. cbn [fst snd]. rewrite Z2Nat.id by lia. rewrite H1, H2. by rewrite decide_True by lia.
Qed.

(** ** theorems *)
Lemma dwta_easy_winner log2 numHashes n g dw g' data topK :
  0 <= numHashes -> 8 * numHashes < 2^53 -> 0 < n <= 2^53 ->
  0 <= int_of_f (log2 (f_of_Z numHashes)) <= 31 ->
  dwta_New log2 numHashes n g = Ok (dw, g') -> Z.of_nat (length data) = n ->
  exists hs, dwta_GetHashEasy dw data topK = Ok hs /\
    forall b, 0 <= b < numHashes ->
      let entries := bin_entries (dw_indices dw) (dw_pos dw) (dw_permute dw) n data b in
      entries.*1 ≡ₚ seqZ 0 8 /\
      forall q h v, first_max fMinInt64 entries.*2 q -> entries !! q = Some (h, v) ->
        hs !! Z.to_nat b = Some h.
Proof.
  intros H1 H2 H3 Hlog HE Hd.
  destruct (dwta_New_spec log2 numHashes n g H1 H2 H3) as (dw' & g'' & HE' & HG & Hl & _).
  rewrite HE in HE'. injection HE' as <- <-. rewrite <- Hl in Hlog.
  destruct (dwta_GetHashEasy_spec dw numHashes n _ data topK HG Hlog) as (hs & Hhs & Hlen & _ & Hb); [lia|].
  exists hs. split; [done|]. intros b Hbr. cbv zeta.
  rewrite (dg_k _ _ _ _ HG). split; [by eapply bin_entries_full|].
  intros q h v Hq Hh. specialize (Hb (Z.to_nat b) ltac:(lia)). rewrite Z2Nat.id in Hb by lia.
  destruct Hb as [(q' & h' & v' & Hq' & Hh' & Hhs')|[[He _]|[He _]]].
  - rewrite (first_max_functional _ _ _ _ Hq' Hq) in Hh'. congruence.
  - exfalso. by eapply first_max_not_none.
  - exfalso. by eapply first_max_not_none.
Qed.

Lemma dwta_digits log2 numHashes n g dw g' :
  0 <= numHashes -> 8 * numHashes < 2^53 -> 0 < n <= 2^53 ->
  0 <= int_of_f (log2 (f_of_Z numHashes)) <= 31 ->
  dwta_New log2 numHashes n g = Ok (dw, g') ->
  (forall pairs, Z.of_nat (length pairs) <= n ->
     exists hs, dwta_GetHash dw pairs = Ok hs /\ Z.of_nat (length hs) = numHashes /\
       Forall (fun h => 0 <= h < 8) hs) /\
  (forall data topK, Z.of_nat (length data) <= n ->
     exists hs, dwta_GetHashEasy dw data topK = Ok hs /\ Z.of_nat (length hs) = numHashes /\
       Forall (fun h => 0 <= h < 8) hs).
Proof.
  intros H1 H2 H3 Hlog HE.
  destruct (dwta_New_spec log2 numHashes n g H1 H2 H3) as (dw' & g'' & HE' & HG & Hl & _).
  rewrite HE in HE'. injection HE' as <- <-. rewrite <- Hl in Hlog. split.
  - intros pairs Hd. destruct (dwta_GetHash_spec dw numHashes n _ pairs HG Hlog Hd) as (hs & ? & ? & ? & _). eauto.
  - intros data topK Hd. destruct (dwta_GetHashEasy_spec dw numHashes n _ data topK HG Hlog Hd) as (hs & ? & ? & ? & _). eauto.
Qed.

Lemma dwta_borrow log2 numHashes n g dw g' pairs hs :
  0 <= numHashes -> 8 * numHashes < 2^53 -> 0 < n <= 2^53 ->
  0 <= int_of_f (log2 (f_of_Z numHashes)) <= 31 ->
  dwta_New log2 numHashes n g = Ok (dw, g') -> Z.of_nat (length pairs) <= n ->
  dwta_GetHash dw pairs = Ok hs ->
  let entries b := bin_entries (dw_indices dw) (dw_pos dw) (dw_permute dw) n (map iv_value pairs) b in
  let empty b := entries b = [] in
  forall b, 0 <= b < numHashes ->
    (~ empty b -> exists q h v, sticky_max (entries b).*2 q /\ entries b !! q = Some (h, v) /\
        hs !! Z.to_nat b = Some h) /\
    (empty b ->
       (exists b', 0 <= b' < numHashes /\ borrows_from (dw_d dw) empty b b' /\
          hs !! Z.to_nat b = hs !! Z.to_nat b') \/
       (borrows_nothing (dw_d dw) empty b /\ hs !! Z.to_nat b = Some 0)).
Proof.
  intros H1 H2 H3 Hlog HE Hd Hhs entries empty b Hb.
  destruct (dwta_New_spec log2 numHashes n g H1 H2 H3) as (dw' & g'' & HE' & HG & Hl & _).
  rewrite HE in HE'. injection HE' as <- <-. rewrite <- Hl in Hlog.
  destruct (dwta_GetHash_spec dw numHashes n _ pairs HG Hlog Hd) as (hs' & Hhs' & _ & _ & HH).
  rewrite Hhs in Hhs'. injection Hhs' as <-. unfold empty, entries. rewrite (dg_k _ _ _ _ HG).
  specialize (HH (Z.to_nat b) ltac:(lia)). rewrite Z2Nat.id in HH by lia. split.
  - intros Hne. destruct HH as [HH|[[He _]|[He _]]]; [done|by destruct Hne..].
  - intros He. destruct HH as [(q & h & v & _ & Hq & _)|[[_ HH]|[_ HH]]]; [by rewrite He in Hq|by left|by right].
Qed.

Lemma dwta_borrow_easy log2 numHashes n g dw g' data topK hs :
  0 <= numHashes -> 8 * numHashes < 2^53 -> 0 < n <= 2^53 ->
  0 <= int_of_f (log2 (f_of_Z numHashes)) <= 31 ->
  dwta_New log2 numHashes n g = Ok (dw, g') -> Z.of_nat (length data) <= n ->
  dwta_GetHashEasy dw data topK = Ok hs ->
  let entries b := bin_entries (dw_indices dw) (dw_pos dw) (dw_permute dw) n data b in
  let empty b := none_above fMinInt64 (entries b).*2 in
  forall b, 0 <= b < numHashes ->
    empty b ->
       (exists b', 0 <= b' < numHashes /\ borrows_from (dw_d dw) empty b b' /\
          hs !! Z.to_nat b = hs !! Z.to_nat b') \/
       (borrows_nothing (dw_d dw) empty b /\ hs !! Z.to_nat b = Some 0).
Proof.
  intros H1 H2 H3 Hlog HE Hd Hhs entries empty b Hb.
  destruct (dwta_New_spec log2 numHashes n g H1 H2 H3) as (dw' & g'' & HE' & HG & Hl & _).
  rewrite HE in HE'. injection HE' as <- <-. rewrite <- Hl in Hlog.
  destruct (dwta_GetHashEasy_spec dw numHashes n _ data topK HG Hlog Hd) as (hs' & Hhs' & _ & _ & HH).
  rewrite Hhs in Hhs'. injection Hhs' as <-. unfold empty, entries. rewrite (dg_k _ _ _ _ HG).
  specialize (HH (Z.to_nat b) ltac:(lia)). rewrite Z2Nat.id in HH by lia.
  intros He. destruct HH as [(q & h & v & Hq & _)|[[_ HH]|[_ HH]]]; [|by left|by right].
  exfalso. by eapply first_max_not_none.
Qed.

(** ** C22 *)
Lemma dwta_GetHash_values dw pairs pairs' :
  map iv_value pairs = map iv_value pairs' -> dwta_GetHash dw pairs = dwta_GetHash dw pairs'.
Proof.
  intros Hv. unfold dwta_GetHash. destruct (make_slice _ _) as [items|]; cbn [mbind res_bind]; [|done].
  match goal with |- (_ ← ?a; _) = (_ ← ?b; _) => assert (a = b) as -> end; [|done].
  rewrite !foldM_nested. set (ps := seqZ 0 (dw_permute dw)). clearbody ps.
  assert (HH : forall L L', map (fun x => (x.1, (x.2.1, iv_value x.2.2))) L = map (fun x => (x.1, (x.2.1, iv_value x.2.2))) L' ->
    forall items, foldM (fun s px => dwta_scan_item dw px.1 s px.2) items L = foldM (fun s px => dwta_scan_item dw px.1 s px.2) items L').
  { induction L as [|[p [i pr]] L IH]; intros [|[p' [i' pr']] L']; try done.
    cbn [map fst snd]. intros [= <- <- Hpr HL]. intros items'. cbn [foldM fst snd].
    assert (dwta_scan_item dw p items' (i, pr) = dwta_scan_item dw p items' (i, pr')) as ->.
    { unfold dwta_scan_item. by rewrite Hpr. }
    destruct (dwta_scan_item dw p items' (i, pr')); [by apply IH|done]. }
  apply HH.
  induction ps as [|p ps IH]; [done|]. cbn [flat_map]. rewrite !map_app, IH. f_equal.
  assert (Hi : map (fun ix => (ix.1, iv_value ix.2)) (indexed pairs) = map (fun ix => (ix.1, iv_value ix.2)) (indexed pairs')).
  { by rewrite <- !indexed_map, Hv. }
  rewrite !map_map. cbn [fst snd].
  transitivity (map (fun z => (p, z)) (map (fun ix => (ix.1, iv_value ix.2)) (indexed pairs))); [by rewrite map_map|].
  rewrite Hi. by rewrite map_map.
Qed.

Lemma borrows_functional d (e e' : Z -> Prop) i ix ix' :
  (forall c b, 1 <= c <= 100 -> probes d i c b -> (e b <-> e' b)) ->
  borrows_from d e i ix -> borrows_from d e' i ix' -> ix = ix'.
Proof.
  intros He (c & Hc & Hp & Hn & Hb) (c' & Hc' & Hp' & Hn' & Hb').
  destruct (Z.lt_trichotomy c c') as [Hlt|[->|Hlt]].
  - destruct (Hb' c) as (b & Hpb & Heb); [lia|]. rewrite (probes_functional _ _ _ _ _ Hpb Hp) in *.
    exfalso. apply Hn. by apply (He c).
  - by eapply probes_functional.
  - destruct (Hb c') as (b & Hpb & Heb); [lia|]. rewrite (probes_functional _ _ _ _ _ Hpb Hp') in *.
    exfalso. apply Hn'. by apply (He c').
Qed.

Lemma borrows_excl d (e e' : Z -> Prop) i ix :
  (forall c b, 1 <= c <= 100 -> probes d i c b -> (e b <-> e' b)) ->
  borrows_from d e i ix -> borrows_nothing d e' i -> False.
Proof.
  intros He (c & Hc & Hp & Hn & _) Hno. destruct (Hno c Hc) as (b & Hpb & Heb).
  rewrite (probes_functional _ _ _ _ _ Hpb Hp) in *. apply Hn. by apply (He c).
Qed.

Lemma sticky_first_max vals q :
  (forall i v, vals !! i = Some v -> fltb fMinInt64 v = true) ->
  sticky_max vals q -> first_max fMinInt64 vals q.
Proof.
  intros Hall (v0 & H0 & HH).
  assert (Hnn : forall i v, vals !! i = Some v -> is_nan v = false).
  { intros i v Hi. by destruct (fltb_not_nan _ _ (Hall _ _ Hi)). }
  rewrite (Hnn _ _ H0) in HH. destruct HH as (v & Hv & _ & Hmax & Hf).
  exists v. split; [done|]. split; [by eapply Hall|]. split; [done|].
  intros q' v' Hlt Hv' _. eapply Hf; eauto.
Qed.

Lemma bin_entries_values ix pos k n vals b i v :
  (bin_entries ix pos k n vals b).*2 !! i = Some v -> v ∈ vals.
Proof.
  intros H%elem_of_list_lookup_2. apply elem_of_list_fmap in H as ([q w] & -> & Hin). cbn.
  apply elem_of_list_In, in_flat_map in Hin as (p & _ & Hin).
  apply elem_of_list_In, elem_of_list_omap in Hin as (j & _ & HE).
  destruct (ix !! _); [|done]. destruct (pos !! _); [|done]. destruct (vals !! j) eqn:E; [|done].
  case_decide; [|done]. injection HE as -> ->. by eapply elem_of_list_lookup_2.
Qed.

Lemma dwta_sparse_easy_agree dw numHashes n k pairs topK :
  dwta_good dw numHashes n k -> 0 <= dh_logNumHash (dw_d dw) <= 31 -> Z.of_nat (length pairs) <= n ->
  Forall (fun p => fltb fMinInt64 (iv_value p) = true) pairs ->
  dwta_GetHash dw pairs = dwta_GetHashEasy dw (map iv_value pairs) topK.
Proof.
  intros HG Hlog Hd Hall.
  destruct (dwta_GetHash_spec dw numHashes n k pairs HG Hlog Hd) as (hs & -> & Hl & _ & HH).
  destruct (dwta_GetHashEasy_spec dw numHashes n k (map iv_value pairs) topK HG Hlog) as (hs' & -> & Hl' & _ & HH').
  { by rewrite map_length. }
  f_equal.
  set (es b := bin_entries (dw_indices dw) (dw_pos dw) k n (map iv_value pairs) b) in *.
  assert (Hgt : forall b i v, (es b).*2 !! i = Some v -> fltb fMinInt64 v = true).
  { intros b i v Hi%bin_entries_values. apply elem_of_list_fmap in Hi as (p & -> & Hp).
    rewrite Forall_forall in Hall. by apply Hall. }
  assert (Hemp : forall b, es b = [] <-> none_above fMinInt64 (es b).*2).
  { intros b. split; [intros ->; by intros q v|]. intros Hn. destruct (es b) as [|[q v] l] eqn:E; [done|].
    pose proof (Hgt b O v) as Hv. rewrite E in Hv. specialize (Hv eq_refl).
    specialize (Hn O v eq_refl). congruence. }
  assert (Hwin : forall b : nat, Z.of_nat b < numHashes -> es (Z.of_nat b) <> [] -> hs !! b = hs' !! b).
  { intros b Hb Hne. specialize (HH b Hb). specialize (HH' b Hb).
    destruct HH as [(q & h & v & Hq & Hh & ->)|[[? _]|[? _]]]; [|done..].
    destruct HH' as [(q' & h' & v' & Hq' & Hh' & ->)|[[He _]|[He _]]]; [|by apply Hemp in He..].
    apply sticky_first_max in Hq; [|apply Hgt].
    rewrite (first_max_functional _ _ _ _ Hq Hq') in Hh. rewrite Hh in Hh'. by injection Hh' as -> ->. }
  apply list_eq. intros b.
  destruct (decide (Z.of_nat b < numHashes)) as [Hb|Hb].
  2:{ rewrite !lookup_ge_None_2 by lia. done. }
  destruct (decide (es (Z.of_nat b) = [])) as [He|Hne]; [|by apply Hwin].
  pose proof (HH b Hb) as H1. pose proof (HH' b Hb) as H2.
  destruct H1 as [(q & h & v & _ & Hh & _)|[(_ & b1 & Hb1 & Hf1 & E1)|(_ & Hno & E1)]].
  - by rewrite He in Hh.
  - destruct H2 as [(q & h & v & Hfm & _)|[(_ & b2 & Hb2 & Hf2 & E2)|(_ & Hno & E2)]].
    + apply Hemp in He. exfalso. by eapply first_max_not_none.
    + rewrite E1, E2. assert (b1 = b2) as <-.
      { eapply borrows_functional; [|exact Hf1|exact Hf2]. intros; apply Hemp. }
      apply Hwin; [lia|]. rewrite Z2Nat.id by lia. destruct Hf1 as (c & _ & _ & Hn & _). done.
    + exfalso. eapply borrows_excl; [|exact Hf1|exact Hno]. intros; apply Hemp.
  - destruct H2 as [(q & h & v & Hfm & _)|[(_ & b2 & Hb2 & Hf2 & E2)|(_ & Hno' & E2)]].
    + apply Hemp in He. exfalso. by eapply first_max_not_none.
    + exfalso. eapply borrows_excl; [|exact Hf2|exact Hno]. intros; symmetry; apply Hemp.
    + by rewrite E1, E2.
Qed.

Lemma dwta_sparse_full log2 numHashes n g dw g' pairs topK :
  0 <= numHashes -> 8 * numHashes < 2^53 -> 0 < n <= 2^53 ->
  0 <= int_of_f (log2 (f_of_Z numHashes)) <= 31 ->
  dwta_New log2 numHashes n g = Ok (dw, g') ->
  map iv_index pairs = seqZ 0 n ->
  Forall (fun p => fltb fMinInt64 (iv_value p) = true) pairs ->
  dwta_GetHash dw pairs = dwta_GetHashEasy dw (dense_of n pairs) topK.
Proof.
  intros H1 H2 H3 Hlog HE Hpairs Hall.
  destruct (dwta_New_spec log2 numHashes n g H1 H2 H3) as (dw' & g'' & HE' & HG & Hl & _).
  rewrite HE in HE'. injection HE' as <- <-. rewrite <- Hl in Hlog.
  rewrite dense_of_full by done. eapply dwta_sparse_easy_agree; eauto.
  apply (f_equal length) in Hpairs. rewrite map_length, seqZ_length in Hpairs. lia.
Qed.

Definition log2_const (k : Z) : float64 -> float64 := fun _ => f_of_Z k.

Lemma dwta_sparse_refuted :
  exists log2 numHashes n g dw g' pairs hs hs',
    dwta_New log2 numHashes n g = Ok (dw, g') /\
    0 <= int_of_f (log2 (f_of_Z numHashes)) <= 31 /\
    NoDup (map iv_index pairs) /\ Forall (fun p => 0 <= iv_index p < n) pairs /\
    Forall (fun p => fltb fMinInt64 (iv_value p) = true) pairs /\
    Z.of_nat (length pairs) = n /\
    dwta_GetHash dw pairs = Ok hs /\ dwta_GetHashEasy dw (dense_of n pairs) 0 = Ok hs' /\ hs <> hs'.
Proof.
  exists (log2_const 0), 1, 2, {| rstream := fun n => 5 + 11 * Z.of_nat n; rpos := 0 |}. do 2 eexists.
  exists [mkPair 1 (f_of_Z 1); mkPair 0 (f_of_Z 2)]. do 2 eexists.
  split; [vm_compute; reflexivity|].
  split; [vm_compute; done|].
  split; [apply (bool_decide_unpack _); vm_compute; done|].
  split; [repeat constructor; simpl; lia|].
  split; [repeat constructor|].
  split; [done|]. split; [vm_compute; reflexivity|]. split; [vm_compute; reflexivity|]. done.
Qed.

(** ** C23 *)
Lemma probes_stuck d b c :
  fst (dh_randHash d) = 2^61 - 1 -> 0 <= dh_logNumHash d <= 31 -> 1 <= dh_numHashes d <= 2^31 ->
  0 <= b < 2^31 -> 1 <= c <= 101 -> probes d b c (dh_numHashes d - 1).
Proof.
  intros Hr Hlog Hn Hb Hc.
  destruct (GetRandDoubleHash_ok d b c Hlog) as (r & HE & H0 & Hrv).
  exists r. split; [done|]. rewrite Z.min_r; [done|].
  rewrite Hr in Hrv. set (T := 64 * (b + 1) + c) in *.
  assert (HT : 1 <= T < 2^40) by (unfold T; lia).
  replace (8 * ((2^61 - 1) * T)) with (2^64 - 8 * T + (T - 1) * 2^64) in Hrv by lia.
  rewrite Z_mod_plus_full, Z.mod_small in Hrv by lia.
  assert (Hp : 2 ^ (32 - dh_logNumHash d) <= 2 ^ 32) by (apply Z.pow_le_mono_r; lia).
  assert (Hp0 : 0 < 2 ^ (32 - dh_logNumHash d)) by (apply Z.pow_pos_nonneg; lia).
  rewrite Hrv. apply Z.div_le_lower_bound; [done|].
  assert (2 ^ (32 - dh_logNumHash d) * (dh_numHashes d - 1) <= 2^32 * 2^31) by (apply Z.mul_le_mono_nonneg; lia).
  lia.
Qed.

Definition g_stuck : rng := {| rstream := fun _ => 2^61 - 1; rpos := 0 |}.

Lemma positiveOdd_stuck g : rstream g = rstream g_stuck ->
  exists g', positiveOddRandomInt g = (2^61 - 1, g') /\ rstream g' = rstream g_stuck.
Proof.
  intros Hg. unfold positiveOddRandomInt, rand_int, draw_below, draw. rewrite Hg. simpl rstream.
  cbv iota beta. eexists. split; [reflexivity|]. done.
Qed.

Lemma dh_New_stuck log2 numHashes n g : rstream g = rstream g_stuck ->
  fst (dh_randHash (fst (dh_New log2 numHashes n g))) = 2^61 - 1.
Proof.
  intros Hg. unfold dh_New. destruct (positiveOdd_stuck g Hg) as (g1 & -> & H1).
  destruct (positiveOdd_stuck g1 H1) as (g2 & -> & H2).
  destruct (positiveOdd_stuck g2 H2) as (g3 & -> & H3). done.
Qed.

Lemma dwta_stuck_refuted :
  exists g, forall log2 numHashes n,
    2 <= numHashes <= 2^31 -> 0 < n <= 2^53 -> 0 <= int_of_f (log2 (f_of_Z numHashes)) <= 31 ->
    exists dw g', dwta_New log2 numHashes n g = Ok (dw, g') /\
      forall b c, 0 <= b < numHashes -> 1 <= c <= 101 -> probes (dw_d dw) b c (numHashes - 1).
Proof.
  exists g_stuck. intros log2 numHashes n Hn H3 Hlog.
  destruct (dwta_New_spec log2 numHashes n g_stuck) as (dw & g' & HE & HG & Hl & _); [lia..|].
  exists dw, g'. split; [done|]. intros b c Hb Hc.
  pose proof (probes_stuck (dw_d dw) b c) as HP. rewrite (dg_num _ _ _ _ HG) in HP.
  apply HP; [|by rewrite Hl|lia..].
  revert HE. unfold dwta_New.
  destruct (make_slice 0 n) as [nA|]; cbn [mbind res_bind]; [|done].
  destruct (make_slice 0 (wrap64 _)) as [ix|]; cbn [mbind res_bind]; [|done].
  destruct (foldM _ _ _) as [[[nA' [ix' pos']] g1]|] eqn:EF; cbn [mbind res_bind]; [|done].
  assert (Hg1 : rstream g1 = rstream g_stuck).
  { refine (foldM_preserve (fun st => rstream st.2 = rstream g_stuck) _ _ _ _ _ _ EF); [|done].
    intros [[nA0 ip0] g0] p [[nA2 ip2] g2] Hg0. cbn [snd] in *. unfold dwta_step.
    destruct (shuffle nA0 g0) as [nA3 g3] eqn:ES.
    destruct (foldM (dwta_fill n p) _ _); cbn [mbind res_bind]; [|done].
    intros [= _ _ <-]. by rewrite (shuffle_rstream _ _ _ _ ES). }
  pose proof (dh_New_stuck log2 numHashes n g1 Hg1) as HS.
  destruct (dh_New log2 numHashes n g1) as [d g2]. intros [= <- _]. done.
Qed.

Lemma probe_in_range d b c :
  0 <= dh_logNumHash d <= 31 -> 1 <= dh_numHashes d ->
  exists ix, probes d b c ix /\ 0 <= ix < dh_numHashes d.
Proof. intros H1 H2. destruct (probe_index_ok d b c H1 H2) as (ix & _ & H & Hr). eauto. Qed.

Lemma dwta_seeds log2 numHashes n g dw g' :
  0 <= numHashes -> 8 * numHashes < 2^53 -> 0 < n <= 2^53 ->
  dwta_New log2 numHashes n g = Ok (dw, g') ->
  Forall (fun r => 0 < r <= maxInt64 /\ Z.odd r = true)
    [fst (dh_randHash (dw_d dw)); snd (dh_randHash (dw_d dw)); dh_randa (dw_d dw)].
Proof.
  intros H1 H2 H3 HE.
  destruct (dwta_New_spec log2 numHashes n g H1 H2 H3) as (dw' & g'' & HE' & _ & _ & HS).
  rewrite HE in HE'. injection HE' as <- <-. by destruct (dh_randHash (dw_d dw)).
Qed.
