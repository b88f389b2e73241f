From Verif.Model Require Import Lsh.
From Verif.Spec Require Import FifoSpec LshSpec.
From Verif.Proofs Require Import BaseProofs FifoProofs.
From Coq Require Import ZifyBool ZifyNat Lia.
Ltac Zify.zify_post_hook ::= Z.div_mod_to_equations.

(** * Tables *)

(** Mutating calls seen by the bucket at (table, index). *)
Definition bops1 (l : Z) (table index : Z) (o : lsh_op) : list fifo_op :=
  match o with
  | LClear => [FReset]
  | LAddSingle t i id => if decide (t = table /\ i = index) then [FAdd id] else []
  | LAdd indices id => if decide (indices !! Z.to_nat table = Some index) then [FAdd id] else []
  end.
Definition bops (l : Z) (ops : list lsh_op) (table index : Z) : list fifo_op :=
  ops ≫= bops1 l table index.

Lemma bops_snoc l ops o table index :
  bops l (ops ++ [o]) table index = bops l ops table index ++ bops1 l table index o.
Proof. unfold bops. rewrite bind_app. simpl. by rewrite app_nil_r. Qed.

Lemma routed_snoc ops o table index :
  routed (ops ++ [o]) table index =
  match o with
  | LClear => []
  | LAddSingle t i id => if decide (t = table /\ i = index) then routed ops table index ++ [id]
                         else routed ops table index
  | LAdd indices id => if decide (indices !! Z.to_nat table = Some index)
                       then routed ops table index ++ [id] else routed ops table index
  end.
Proof. unfold routed. by rewrite fold_left_snoc. Qed.

Lemma bops_adds l ops table index :
  adds_since_reset (bops l ops table index) = routed ops table index.
Proof.
  induction ops as [|o ops IH] using rev_ind; [done|].
  rewrite bops_snoc, routed_snoc. destruct o as [indices id|t i id|]; cbn [bops1].
  - case_decide; rewrite ?adds_snoc, ?app_nil_r; congruence.
  - case_decide; rewrite ?adds_snoc, ?app_nil_r; congruence.
  - by rewrite adds_snoc.
Qed.

(** Shape and contents of the tables: for every in-range position, the bucket satisfies
    the fifo invariant for the calls [H table index]. *)
Record LInv (l rp : Z) (H : Z -> Z -> list fifo_op) (t : LSH) : Prop := {
  li_l : lsh_l t = l;
  li_l0 : 0 <= l;
  li_rp : 0 <= rp <= 62;
  li_len : length (lsh_buckets t) = Z.to_nat l;
  li_row : forall i row, lsh_buckets t !! i = Some row -> length row = Z.to_nat (2^rp);
  li_bkt : forall i row j b, lsh_buckets t !! i = Some row -> row !! j = Some b ->
     FInv (H (Z.of_nat i) (Z.of_nat j)) b;
}.

Lemma int_pow2_small rp : 0 <= rp <= 62 -> int_pow2 rp = Ok (2^rp).
Proof.
  intros H. unfold int_pow2. destruct (Z.ltb_spec rp 0); [lia|].
  destruct (Z.leb_spec 64 rp); [lia|]. f_equal. apply wrap64_small.
  unfold in_int64, minInt64, maxInt64.
  pose proof (Z.pow_le_mono_r 2 rp 62). pose proof (Z.pow_pos_nonneg 2 rp). lia.
Qed.

Lemma lsh_New_spec k l rp g :
  0 <= k -> 0 <= l -> 0 <= rp <= 62 -> k * l < 2^63 ->
  exists t g', lsh_New k l rp g = Ok (t, g') /\ LInv l rp (fun _ _ => []) t /\
    lsh_k t = k /\ lsh_rangePow t = rp /\ length (lsh_rand1 t) = Z.to_nat (k * l) /\
    Forall (fun z => 0 < z <= maxInt64 /\ Z.odd z = true) (lsh_rand1 t).
Proof.
  intros Hk Hl Hrp Hkl. unfold lsh_New, make_slice.
  destruct (Z.ltb_spec l 0); [lia|]. simpl.
  rewrite int_pow2_small by done. simpl.
  pose proof (Z.pow_pos_nonneg 2 rp).
  destruct (Z.ltb_spec (2^rp) 0); [lia|].
  assert (Hm : mapM_res (fun _ : () => Ok (replicate (Z.to_nat (2^rp)) fifo_New)) (replicate (Z.to_nat l) ())
     = Ok (replicate (Z.to_nat l) (replicate (Z.to_nat (2^rp)) fifo_New))).
  { apply mapM_res_Forall2. apply Forall2_same_length_lookup_2; rewrite ?replicate_length; [done|].
    intros i x y _ [-> _]%lookup_replicate. done. }
  rewrite Hm. simpl.
  rewrite wrap64_small by (unfold in_int64, minInt64, maxInt64; nia).
  destruct (Z.ltb_spec (k*l) 0); [nia|]. simpl. rewrite replicate_length.
  destruct (oddRandoms (Z.to_nat (k * l)) g) as [rs g'] eqn:E.
  apply oddRandoms_spec in E as [? ?].
  eexists _, _. split; [done|]. split; [|done].
  split; cbn [lsh_buckets lsh_l]; [done|done|done|by rewrite replicate_length| |].
  - intros i row [-> _]%lookup_replicate. by rewrite replicate_length.
  - intros i row j b [-> _]%lookup_replicate [-> _]%lookup_replicate. apply FInv_init.
Qed.

Lemma LInv_lookup l rp H t table index :
  LInv l rp H t -> 0 <= table < l -> 0 <= index < 2^rp ->
  exists row b, sget (lsh_buckets t) table = Ok row /\ sget row index = Ok b /\
    lsh_buckets t !! Z.to_nat table = Some row /\ row !! Z.to_nat index = Some b /\
    length row = Z.to_nat (2^rp) /\
    FInv (H table index) b.
Proof.
  intros HI Ht Hi. destruct (sget_total (lsh_buckets t) table) as (row & Er & Er').
  { destruct HI; lia. }
  assert (Hrow := li_row _ _ _ _ HI _ _ Er').
  destruct (sget_total row index) as (b & Eb & Eb'); [lia|].
  exists row, b. do 5 (split; [done|]).
  pose proof (li_bkt _ _ _ _ HI _ _ _ _ Er' Eb') as HF.
  by rewrite !Z2Nat.id in HF by lia.
Qed.

Lemma lsh_addAt_spec l rp H t table index id :
  LInv l rp H t -> 0 <= table < l -> 0 <= index < 2^rp ->
  exists t', lsh_addAt t table index id =
      Ok (Z.of_nat (length (adds_since_reset (H table index)) mod 128), t') /\
    LInv l rp (fun a b => H a b ++ (if decide (table = a /\ index = b) then [FAdd id] else [])) t' /\
    lsh_k t' = lsh_k t /\ lsh_rangePow t' = lsh_rangePow t /\ lsh_rand1 t' = lsh_rand1 t.
Proof.
  intros HI Ht Hi.
  destruct (LInv_lookup _ _ _ _ _ _ HI Ht Hi) as (row & b & E1 & E2 & L1 & L2 & Hrow & HF).
  destruct (fifo_Add_spec _ _ id HF) as (b' & E3 & HF' & _).
  unfold lsh_addAt. rewrite E1. simpl. rewrite E2. simpl. rewrite E3. simpl.
  rewrite sset_total by lia. simpl.
  rewrite sset_total by (destruct HI; lia). simpl.
  eexists. split; [done|]. split; [|done].
  split; cbn [lsh_l lsh_buckets]; try apply HI.
  - rewrite insert_length. apply HI.
  - intros i row' [(Hi' & <- & _)|[_ Hr]]%list_lookup_insert_Some.
    + by rewrite insert_length.
    + by eapply HI.
  - intros i row' j b0 [(<- & <- & _)|[Hne Hr]]%list_lookup_insert_Some.
    + rewrite list_lookup_insert_Some. intros [(<- & <- & _)|[Hne Hb]].
      * rewrite !Z2Nat.id by lia. by rewrite decide_True.
      * rewrite decide_False by lia. rewrite app_nil_r. by eapply HI.
    + intros Hb. rewrite decide_False by lia. rewrite app_nil_r. by eapply HI.
Qed.

Lemma LInv_ext l rp H H' t :
  (forall a b, 0 <= a < l -> 0 <= b < 2^rp -> H a b = H' a b) -> LInv l rp H t -> LInv l rp H' t.
Proof.
  intros E HI. pose proof HI as [? ? ? Hlen Hrow Hb]. split; try done.
  intros i row j b Hr Hj. rewrite <-E; [by eauto| |].
  - apply lookup_lt_Some in Hr. lia.
  - apply Hrow in Hr. apply lookup_lt_Some in Hj. lia.
Qed.

Lemma lsh_Add_spec l rp H t indices id :
  LInv l rp H t -> valid_indices l rp indices ->
  exists rs t', lsh_Add t indices id = Ok (rs, t') /\
    length rs = Z.to_nat l /\
    LInv l rp (fun a b => H a b ++ (if decide (indices !! Z.to_nat a = Some b) then [FAdd id] else [])) t' /\
    (forall i x, 0 <= i < l -> indices !! Z.to_nat i = Some x ->
        rs !! Z.to_nat i = Some (Z.of_nat (length (adds_since_reset (H i x)) mod 128))) /\
    lsh_k t' = lsh_k t /\ lsh_rangePow t' = lsh_rangePow t /\ lsh_rand1 t' = lsh_rand1 t.
Proof.
  intros HI Hv. unfold lsh_Add, make_slice. rewrite (li_l _ _ _ _ HI).
  pose proof (li_l0 _ _ _ _ HI) as Hl0.
  destruct (Z.ltb_spec l 0); [lia|]. simpl. rewrite replicate_length, Z2Nat.id by done.
  set (I := fun (pre : list Z) (s : list Z * LSH) =>
     length s.1 = length pre /\
     LInv l rp (fun a b => H a b ++ (if decide (a < Z.of_nat (length pre) /\ indices !! Z.to_nat a = Some b) then [FAdd id] else [])) s.2 /\
     (forall i x, 0 <= i < Z.of_nat (length pre) -> indices !! Z.to_nat i = Some x ->
        s.1 !! Z.to_nat i = Some (Z.of_nat (length (adds_since_reset (H i x)) mod 128))) /\
     lsh_k s.2 = lsh_k t /\ lsh_rangePow s.2 = lsh_rangePow t /\ lsh_rand1 s.2 = lsh_rand1 t).
  match goal with |- context [foldM ?f _ _] => set (F := f) end.
  destruct (foldM_inv_prefix I F (seqZ 0 l) ([], t)) as ([rs t'] & E & HI').
  - split; [done|]. split; [|split; [|done]].
    + eapply LInv_ext; [|exact HI]. intros a b Ha Hb. simpl. rewrite decide_False by lia. by rewrite app_nil_r.
    + simpl. lia.
  - intros pre x [acc t1] (Hlen & HI1 & Hrs & Hk & Hrp & Hr1) Hpre. cbn [fst snd] in *.
    assert (Hx : x = Z.of_nat (length pre) /\ x < l).
    { destruct Hpre as [suf Hs].
      assert (Hlk : seqZ 0 l !! length pre = Some x).
      { rewrite Hs. rewrite <-app_assoc. by apply list_lookup_middle. }
      apply lookup_seqZ in Hlk. lia. }
    destruct Hx as [-> Hxl].
    destruct (Hv (Z.of_nat (length pre))) as (y & Hy & Hyr); [lia|].
    unfold F. rewrite (proj2 (sget_Ok indices (Z.of_nat (length pre)) y)) by (split; [lia|done]).
    simpl.
    destruct (lsh_addAt_spec _ _ _ _ (Z.of_nat (length pre)) y id HI1) as (t2 & E2 & HI2 & Hk2 & Hrp2 & Hr2); [lia|done|].
    rewrite E2. simpl. eexists. split; [done|].
    split; [cbn [fst]; rewrite !app_length; simpl; lia|]. cbn [fst snd].
    split; [|split; [|split; [congruence|split; congruence]]].
    + eapply LInv_ext; [|exact HI2]. intros a b Ha Hb. cbv beta.
      rewrite app_length. cbn [length].
      destruct (decide (indices !! Z.to_nat a = Some b)) as [Hab|Hab].
      * destruct (decide (a = Z.of_nat (length pre))) as [->|Hne].
        -- rewrite decide_False by lia. rewrite decide_True; [|split; [done|congruence]].
           rewrite decide_True; [by rewrite app_nil_r|]. split; [lia|done].
        -- destruct (decide (a < Z.of_nat (length pre))).
           ++ rewrite decide_True by (by split). rewrite (decide_False (P := Z.of_nat (length pre) = a /\ y = b)) by lia.
              rewrite decide_True by (split; [lia|done]). by rewrite app_nil_r.
           ++ rewrite decide_False by (intros [? _]; lia).
              rewrite (decide_False (P := Z.of_nat (length pre) = a /\ y = b)) by lia.
              rewrite decide_False by (intros [? _]; lia). by rewrite !app_nil_r.
      * rewrite decide_False by (intros [_ ?]; done).
        rewrite (decide_False (P := Z.of_nat (length pre) = a /\ y = b)) by (intros [<- <-]; done).
        rewrite decide_False by (intros [_ ?]; done). by rewrite !app_nil_r.
    + intros i z. rewrite app_length. cbn [length]. intros Hi Hz.
      destruct (decide (i = Z.of_nat (length pre))) as [->|Hne].
      * replace z with y by congruence.
        rewrite Nat2Z.id, <-Hlen.
        rewrite list_lookup_middle by done. do 4 f_equal.
        rewrite decide_False by lia. by rewrite app_nil_r.
      * rewrite lookup_app_l by lia. apply Hrs; [lia|done].
  - destruct HI' as (Hlen & HI' & Hrs & Hk & Hrp & Hr1). cbn [fst snd] in *.
    exists rs, t'. split; [done|]. rewrite seqZ_length in *.
    split; [lia|]. split; [|split; [|done]].
    + eapply LInv_ext; [|exact HI']. intros a b Ha Hb. cbv beta.
      f_equal. destruct (decide (indices !! Z.to_nat a = Some b)).
      * by rewrite decide_True by (split; [lia|done]).
      * by rewrite decide_False by (intros [_ ?]; done).
    + intros i x Hi Hx. apply Hrs; [lia|done].
Qed.

Lemma lsh_Clear_spec l rp H t :
  LInv l rp H t -> LInv l rp (fun a b => H a b ++ [FReset]) (lsh_Clear t).
Proof.
  intros [H1 H2 H3 H4 H5 H6]. split; cbn [lsh_Clear lsh_buckets lsh_l]; try done.
  - by rewrite map_length.
  - intros i row (row0 & Hr & ->)%list_lookup_fmap_Some. rewrite map_length. by eapply H5.
  - intros i row j b (row0 & Hr & ->)%list_lookup_fmap_Some (b0 & Hb & ->)%list_lookup_fmap_Some.
    apply fifo_Reset_spec. by eapply H6.
Qed.

Lemma lsh_step_spec l rp H t o :
  LInv l rp H t -> valid_op l rp o ->
  exists t', lsh_step t o = Ok t' /\ LInv l rp (fun a b => H a b ++ bops1 l a b o) t' /\
    lsh_k t' = lsh_k t /\ lsh_rangePow t' = lsh_rangePow t /\ lsh_rand1 t' = lsh_rand1 t.
Proof.
  intros HI Hv. destruct o as [indices id|tb i id|]; cbn [lsh_step bops1 valid_op] in *.
  - destruct (lsh_Add_spec _ _ _ _ _ id HI Hv) as (rs & t' & -> & _ & HI' & _ & ?). simpl. eauto.
  - destruct Hv. destruct (lsh_addAt_spec _ _ _ _ tb i id HI) as (t' & E & HI' & ?); [done..|].
    unfold lsh_AddSingle. rewrite E. simpl. eauto.
  - eexists. split; [done|]. split; [by apply lsh_Clear_spec|done].
Qed.

Lemma lsh_run_spec l rp t ops :
  LInv l rp (fun _ _ => []) t -> Forall (valid_op l rp) ops ->
  exists t', lsh_run t ops = Ok t' /\ LInv l rp (bops l ops) t' /\
    lsh_k t' = lsh_k t /\ lsh_rangePow t' = lsh_rangePow t /\ lsh_rand1 t' = lsh_rand1 t.
Proof.
  intros HI. induction ops as [|o ops IH] using rev_ind; intros Hv.
  - eexists. split; [done|]. done.
  - apply Forall_app in Hv as [Hv Ho]. apply (proj1 (Forall_singleton (valid_op l rp) o)) in Ho.
    destruct (IH Hv) as (t1 & E1 & HI1 & ? & ? & ?).
    unfold lsh_run in *. rewrite foldM_snoc, E1.
    destruct (lsh_step_spec _ _ _ _ _ HI1 Ho) as (t2 & E2 & HI2 & ? & ? & ?).
    exists t2. split; [done|]. split; [|split; [congruence|split; congruence]].
    eapply LInv_ext; [|exact HI2]. intros a b _ _. simpl. by rewrite bops_snoc.
Qed.

(** Two buckets whose histories have the same ids since the last reset look the same. *)
Lemma FInv_same_contents ops1 ops2 b1 b2 :
  FInv ops1 b1 -> FInv ops2 b2 -> adds_since_reset ops1 = adds_since_reset ops2 ->
  fifo_contents b1 = fifo_contents b2.
Proof.
  intros H1 H2 E. apply list_eq. intros j. apply option_eq. intros v.
  rewrite (fifo_contents_lookup _ _ _ _ H1), (fifo_contents_lookup _ _ _ _ H2). by rewrite E.
Qed.

Lemma FInv_same_Retrieve ops1 ops2 b1 b2 j :
  FInv ops1 b1 -> FInv ops2 b2 -> adds_since_reset ops1 = adds_since_reset ops2 ->
  fifo_Retrieve b1 j = fifo_Retrieve b2 j.
Proof.
  intros H1 H2 E. rewrite (fifo_Retrieve_spec _ _ _ H1), (fifo_Retrieve_spec _ _ _ H2).
  by rewrite (FInv_same_contents _ _ _ _ H1 H2 E).
Qed.

(** What RetrieveRaw returns. *)
Lemma lsh_RetrieveRaw_spec l rp H t indices :
  LInv l rp H t -> valid_indices l rp indices ->
  exists rs, lsh_RetrieveRaw t indices = Ok rs /\ length rs = Z.to_nat l /\
    forall i x, 0 <= i < l -> indices !! Z.to_nat i = Some x ->
      exists b, rs !! Z.to_nat i = Some (fifo_contents b) /\ FInv (H i x) b.
Proof.
  intros HI Hv. unfold lsh_RetrieveRaw, make_slice. rewrite (li_l _ _ _ _ HI).
  pose proof (li_l0 _ _ _ _ HI) as Hl0.
  destruct (Z.ltb_spec l 0); [lia|]. cbn [mbind res_bind]. rewrite replicate_length, Z2Nat.id by done.
  match goal with |- context [mapM_res ?f _] => set (F := f) end.
  assert (HF : forall i, 0 <= i < l -> exists x b, indices !! Z.to_nat i = Some x /\
      F i = Ok (fifo_contents b) /\ FInv (H i x) b).
  { intros i Hi. destruct (Hv i Hi) as (x & Hx & Hxr).
    destruct (LInv_lookup _ _ _ _ _ _ HI Hi Hxr) as (row & b & E1 & E2 & _ & _ & _ & HF).
    exists x, b. split; [done|]. split; [|done]. unfold F. rewrite E1. simpl.
    rewrite (proj2 (sget_Ok indices i x)) by (split; [lia|done]). simpl. by rewrite E2. }
  destruct (mapM_res_total F (seqZ 0 l)) as [rs Hrs].
  { intros i Hi%elem_of_seqZ. destruct (HF i) as (x & b & _ & -> & _); [lia|]. eauto. }
  exists rs. split; [done|]. split.
  - apply mapM_res_length in Hrs. by rewrite seqZ_length in Hrs.
  - intros i x Hi Hx. destruct (HF i Hi) as (x' & b & Hx' & E & HFi).
    destruct (mapM_res_lookup _ _ _ (Z.to_nat i) i Hrs) as (y & Hy & Ey).
    { rewrite lookup_seqZ. lia. }
    exists b. rewrite E in Ey. injection Ey as <-. split; [done|].
    by replace x with x' by congruence.
Qed.

Lemma lsh_refines_map k l rp g ops :
  0 <= k -> 0 <= l -> 0 <= rp <= 62 -> k * l < 2^63 -> Forall (valid_op l rp) ops ->
  exists t0 g' t, lsh_New k l rp g = Ok (t0, g') /\ lsh_run t0 ops = Ok t /\
    forall table index, 0 <= table < l -> 0 <= index < 2^rp ->
      exists b, fifo_run fifo_New (FAdd <$> routed ops table index) = Ok b /\
        (forall slot, lsh_Retrieve t table index slot = fifo_Retrieve b slot) /\
        (forall indices rs, lsh_RetrieveRaw t indices = Ok rs -> indices !! Z.to_nat table = Some index ->
            rs !! Z.to_nat table = Some (fifo_contents b)).
Proof.
  intros Hk Hl Hrp Hkl Hv.
  destruct (lsh_New_spec k l rp g Hk Hl Hrp Hkl) as (t0 & g' & E0 & HI0 & _).
  destruct (lsh_run_spec _ _ _ _ HI0 Hv) as (t & E & HI & _).
  exists t0, g', t. split; [done|]. split; [done|]. intros table index Ht Hi.
  destruct (fifo_run_spec (FAdd <$> routed ops table index)) as (b & Eb & HF).
  exists b. split; [done|].
  destruct (LInv_lookup _ _ _ _ _ _ HI Ht Hi) as (row & b' & E1 & E2 & L1 & L2 & _ & HF').
  assert (Hadds : adds_since_reset (bops l ops table index) = adds_since_reset (FAdd <$> routed ops table index)).
  { rewrite bops_adds. symmetry. apply (adds_app_adds [] (routed ops table index)). }
  split.
  - intros slot. unfold lsh_Retrieve. rewrite E1. simpl. rewrite E2. simpl.
    by apply (FInv_same_Retrieve _ _ _ _ _ HF' HF).
  - intros indices rs Hrs Hix. unfold lsh_RetrieveRaw, make_slice in Hrs.
    rewrite (li_l _ _ _ _ HI) in Hrs. destruct (Z.ltb_spec l 0); [lia|].
    cbn [mbind res_bind] in Hrs. rewrite replicate_length, Z2Nat.id in Hrs by done.
    destruct (mapM_res_lookup _ _ _ (Z.to_nat table) table Hrs) as (y & Hy & Ey).
    { rewrite lookup_seqZ. lia. }
    rewrite E1 in Ey. simpl in Ey.
    rewrite (proj2 (sget_Ok indices table index)) in Ey by (split; [lia|done]). simpl in Ey.
    rewrite E2 in Ey. simpl in Ey. injection Ey as <-. rewrite Hy. f_equal.
    by apply (FInv_same_contents _ _ _ _ HF' HF).
Qed.

(** * Panics *)

Lemma lsh_RetrieveRaw_panics l rp H t indices :
  LInv l rp H t ->
  (valid_indices l rp indices <-> exists rs, lsh_RetrieveRaw t indices = Ok rs).
Proof.
  intros HI. split.
  - intros Hv. destruct (lsh_RetrieveRaw_spec _ _ _ _ _ HI Hv) as (rs & ? & _). eauto.
  - intros [rs Hrs] i Hi. unfold lsh_RetrieveRaw, make_slice in Hrs.
    rewrite (li_l _ _ _ _ HI) in Hrs. destruct (Z.ltb_spec l 0); [lia|].
    cbn [mbind res_bind] in Hrs. rewrite replicate_length, Z2Nat.id in Hrs by lia.
    destruct (mapM_res_lookup _ _ _ (Z.to_nat i) i Hrs) as (y & Hy & Ey).
    { rewrite lookup_seqZ. lia. }
    destruct (sget (lsh_buckets t) i) as [row|] eqn:Er; [|done]. simpl in Ey.
    destruct (sget indices i) as [x|] eqn:Ex; [|done]. simpl in Ey.
    destruct (sget row x) as [b|] eqn:Eb; [|done].
    apply sget_Ok in Er as [_ Er]. apply sget_Ok in Ex as [_ Ex]. apply sget_Ok in Eb as [? Eb].
    exists x. split; [done|]. apply (li_row _ _ _ _ HI) in Er. apply lookup_lt_Some in Eb. lia.
Qed.

Lemma lsh_addAt_panics l rp H t table index id :
  LInv l rp H t ->
  (0 <= table < l /\ 0 <= index < 2^rp) <-> exists r, lsh_addAt t table index id = Ok r.
Proof.
  intros HI. split.
  - intros [? ?]. destruct (lsh_addAt_spec _ _ _ _ table index id HI) as (t' & -> & _); [done..|]. eauto.
  - intros [r Hr]. unfold lsh_addAt in Hr.
    destruct (sget (lsh_buckets t) table) as [row|] eqn:Er; [|done]. simpl in Hr.
    destruct (sget row index) as [b|] eqn:Eb; [|done].
    apply sget_Ok in Er as [? Er]. apply sget_Ok in Eb as [? Eb].
    pose proof (li_row _ _ _ _ HI _ _ Er). apply lookup_lt_Some in Er. apply lookup_lt_Some in Eb.
    destruct HI. lia.
Qed.

Lemma lsh_Add_panics l rp H t indices id :
  LInv l rp H t ->
  (valid_indices l rp indices <-> exists r, lsh_Add t indices id = Ok r).
Proof.
  intros HI. split.
  - intros Hv. destruct (lsh_Add_spec _ _ _ _ _ id HI Hv) as (rs & t' & -> & _). eauto.
  - intros [r Hr]. unfold lsh_Add, make_slice in Hr.
    rewrite (li_l _ _ _ _ HI) in Hr. pose proof (li_l0 _ _ _ _ HI) as Hl0. destruct (Z.ltb_spec l 0); [lia|].
    cbn [mbind res_bind] in Hr. rewrite replicate_length, Z2Nat.id in Hr by lia.
    match type of Hr with foldM ?f _ _ = _ => set (F := f) in Hr end.
    intros i Hi.
    assert (Hs : seqZ 0 l = seqZ 0 i ++ i :: seqZ (i + 1) (l - i - 1)).
    { replace l with (i + (l - i)) at 1 by lia. rewrite seqZ_app by lia. f_equal.
      rewrite (seqZ_cons (0 + i)) by lia. replace (0 + i) with i by lia. f_equal. }
    rewrite Hs, foldM_app in Hr.
    destruct (foldM F ([], t) (seqZ 0 i)) as [[acc t1]|] eqn:E1; [|done].
    cbn [foldM] in Hr.
    destruct (F (acc, t1) i) as [s|] eqn:E2; [|done]. unfold F in E2.
    destruct (sget indices i) as [x|] eqn:Ex; [|done]. simpl in E2.
    (* shape is preserved by successful adds *)
    assert (Hshape : forall js acc0 t0 H0 acc1 t1', LInv l rp H0 t0 ->
        foldM F (acc0, t0) js = Ok (acc1, t1') -> exists H1, LInv l rp H1 t1').
    { clear. intros js. induction js as [|j js IH]; intros acc0 t0 H0 acc1 t1' HL; simpl.
      - intros [= <- <-]. eauto.
      - destruct (sget indices j) as [y|]; [|done]. simpl.
        destruct (lsh_addAt t0 j y id) as [[r t2]|] eqn:Ea; [|done]. simpl.
        assert (Hv : 0 <= j < l /\ 0 <= y < 2^rp).
        { eapply lsh_addAt_panics; [exact HL|]. eauto. }
        destruct Hv. destruct (lsh_addAt_spec _ _ _ _ j y id HL) as (t3 & Ea' & HL' & _); [done..|].
        rewrite Ea in Ea'. injection Ea' as _ <-. by eapply IH. }
    destruct (Hshape _ _ _ _ _ _ HI E1) as [H1 HI1].
    destruct (lsh_addAt t1 i x id) as [r2|] eqn:Ea; [|done].
    assert (Hv : 0 <= i < l /\ 0 <= x < 2^rp).
    { eapply lsh_addAt_panics; [exact HI1|]. eauto. }
    apply sget_Ok in Ex as [_ Ex]. exists x. split; [done|]. apply Hv.
Qed.

Lemma lsh_Retrieve_panics l rp H t table index slot :
  LInv l rp H t ->
  ((0 <= table < l /\ 0 <= index < 2^rp /\ 0 <= slot) <-> exists v, lsh_Retrieve t table index slot = Ok v).
Proof.
  intros HI. split.
  - intros (Ht & Hi & Hs). destruct (LInv_lookup _ _ _ _ _ _ HI Ht Hi) as (row & b & E1 & E2 & _ & _ & _ & HF).
    unfold lsh_Retrieve. rewrite E1. simpl. rewrite E2. simpl.
    rewrite (fifo_Retrieve_spec _ _ _ HF). destruct (128 <=? slot); [eauto|].
    destruct (Z.ltb_spec slot 0); [lia|]. destruct (fifo_contents b !! _); eauto.
  - intros [v Hv]. unfold lsh_Retrieve in Hv.
    destruct (sget (lsh_buckets t) table) as [row|] eqn:Er; [|done]. simpl in Hv.
    destruct (sget row index) as [b|] eqn:Eb; [|done]. simpl in Hv.
    apply sget_Ok in Er as [? Er]. apply sget_Ok in Eb as [? Eb].
    pose proof (li_row _ _ _ _ HI _ _ Er).
    rewrite (fifo_Retrieve_spec _ _ _ (li_bkt _ _ _ _ HI _ _ _ _ Er Eb)) in Hv.
    apply lookup_lt_Some in Er. apply lookup_lt_Some in Eb.
    destruct (Z.leb_spec 128 slot); [destruct HI; lia|].
    destruct (Z.ltb_spec slot 0); [done|]. destruct HI; lia.
Qed.

(** * Index computation *)

Lemma digits_value_snoc base ds d :
  digits_value base (ds ++ [d]) = digits_value base ds * base + d.
Proof.
  induction ds as [|x ds IH]; simpl; [lia|].
  rewrite IH, app_length. simpl. rewrite Nat2Z.inj_add, Z.pow_add_r by lia. simpl. lia.
Qed.

Lemma digits_value_bound base ds :
  0 < base -> Forall (fun d => 0 <= d < base) ds -> 0 <= digits_value base ds < base ^ Z.of_nat (length ds).
Proof.
  intros Hb. induction 1 as [|d ds Hd _ IH]; cbn [digits_value length]; [lia|].
  rewrite Nat2Z.inj_succ, Z.pow_succ_r by lia. nia.
Qed.

Lemma digits_value_inj base ds ds' :
  0 < base -> length ds = length ds' ->
  Forall (fun d => 0 <= d < base) ds -> Forall (fun d => 0 <= d < base) ds' ->
  digits_value base ds = digits_value base ds' -> ds = ds'.
Proof.
  intros Hb Hlen H. revert ds' Hlen. induction H as [|d ds Hd H IH]; intros [|d' ds'] Hlen H'; try done.
  apply Forall_cons in H' as [Hd' H']. simpl in Hlen. simplify_eq.
  cbn [digits_value]. intros E.
  pose proof (digits_value_bound base ds Hb H). pose proof (digits_value_bound base ds' Hb H').
  rewrite Hlen in *. assert (d = d') by nia. subst. f_equal. apply IH; [done|done|lia].
Qed.

Lemma mod64_add a b : (a mod 2^64 + b mod 2^64) mod 2^64 = (a + b) mod 2^64.
Proof. by rewrite <-Zplus_mod. Qed.

(** shifting left is multiplication modulo 2^64 whatever the count *)
Lemma shl64_mul x n : 0 <= n -> shl64 (u64 x) n = Ok (u64 (x * 2^n)).
Proof.
  intros Hn. unfold shl64. destruct (Z.ltb_spec n 0); [lia|].
  destruct (Z.leb_spec 64 n).
  - f_equal. unfold u64. replace n with (64 + (n - 64)) by lia.
    rewrite Z.pow_add_r by lia. rewrite (Z.mul_comm (2^64)), Z.mul_assoc, Z.mod_mul; lia.
  - f_equal. unfold u64. rewrite Z.shiftl_mul_pow2 by lia. by rewrite Zmult_mod_idemp_l.
Qed.

Lemma window_lookup k i hashes j :
  0 <= k -> 0 <= i -> 0 <= j < k ->
  window k i hashes !! Z.to_nat j = hashes !! Z.to_nat (k * i + j).
Proof.
  intros. unfold window. rewrite lookup_take by lia. rewrite lookup_drop. f_equal. lia.
Qed.

Lemma window_length k i l hashes :
  0 <= k -> 0 <= i < l -> Z.of_nat (length hashes) >= k * l -> length (window k i hashes) = Z.to_nat k.
Proof. intros. unfold window. rewrite take_length, drop_length. nia. Qed.

(** Positional encodings (WTA, DWTA: base 4; SRP: base 2). *)
Definition hf_bits (hf : HashFunctionType) : option Z :=
  match hf with
  | WtaHashFunction | DensifiedWtaHashFunction => Some 2
  | SparseRandomProjectionHashFunction => Some 1
  | _ => None
  end.

Lemma hash_digit_positional hf b t hashes i index j h :
  hf_bits hf = Some b -> 0 <= j < lsh_k t -> 0 <= lsh_k t * i + j ->
  hashes !! Z.to_nat (lsh_k t * i + j) = Some h ->
  hash_digit hf t hashes i index j = Ok (u64 (index + h * 2 ^ ((lsh_k t - 1 - j) * b))).
Proof.
  intros Hb Hj H0 Hh. unfold hash_digit.
  rewrite (proj2 (sget_Ok hashes (lsh_k t * i + j) h)) by done. unfold logBinSize.
  destruct hf; simplify_eq/=; rewrite shl64_mul by lia; simpl; f_equal;
    unfold u64; rewrite Zplus_mod_idemp_r; rewrite ?Z.mul_1_r; done.
Qed.

Lemma table_index_positional hf b t hashes i l :
  hf_bits hf = Some b -> 0 <= lsh_k t -> 0 <= i < l ->
  Z.of_nat (length hashes) >= lsh_k t * l ->
  table_index hf t hashes i = Ok (wrap64 (u64 (digits_value (2^b) (window (lsh_k t) i hashes)))).
Proof.
  intros Hb Hk Hi Hlen. unfold table_index.
  assert (Hb0 : 0 < b) by (destruct hf; simplify_eq/=; lia).
  set (k := lsh_k t) in *. set (w := window k i hashes).
  assert (Hw : length w = Z.to_nat k) by (by eapply window_length).
  set (I := fun (pre : list Z) (s : Z) =>
    s = u64 (digits_value (2^b) (take (length pre) w) * 2 ^ ((k - Z.of_nat (length pre)) * b))).
  destruct (foldM_inv_prefix I (hash_digit hf t hashes i) (seqZ 0 k) 0) as (s & E & HI).
  - unfold I. simpl. done.
  - intros pre x s Hs Hpre.
    assert (Hx : x = Z.of_nat (length pre) /\ x < k).
    { destruct Hpre as [suf Hsuf].
      assert (Hlk : seqZ 0 k !! length pre = Some x).
      { rewrite Hsuf, <-app_assoc. by apply list_lookup_middle. }
      apply lookup_seqZ in Hlk. lia. }
    destruct Hx as [-> Hx].
    destruct (lookup_lt_is_Some_2 w (length pre)) as [h Hh]; [lia|].
    assert (Hh' : hashes !! Z.to_nat (k * i + Z.of_nat (length pre)) = Some h).
    { rewrite <-window_lookup by lia. by rewrite Nat2Z.id. }
    erewrite hash_digit_positional; [|done|fold k; lia|fold k; nia|exact Hh'].
    eexists. split; [done|]. unfold I in *. rewrite Hs. fold k.
    rewrite app_length. cbn [length]. rewrite Nat.add_1_r.
    rewrite (take_S_r _ _ _ Hh), digits_value_snoc.
    unfold u64. rewrite Zplus_mod_idemp_l. f_equal.
    rewrite Z.mul_add_distr_r. f_equal.
    + replace (k - Z.of_nat (length pre)) with ((k - Z.of_nat (S (length pre))) + 1) by lia.
      rewrite Z.mul_add_distr_r, Z.mul_1_l, Z.pow_add_r by nia. lia.
    + f_equal. f_equal. f_equal. lia.
  - rewrite E. unfold I in HI. rewrite seqZ_length in HI.
    replace ((k - Z.of_nat (Z.to_nat k)) * b) with 0 in HI by lia.
    rewrite take_ge in HI by lia. rewrite Z.mul_1_r in HI. subst s.
    destruct hf; simplify_eq/=; done.
Qed.

Lemma HashesToIndex_positional hf b t hashes :
  hf_bits hf = Some b -> 0 <= lsh_k t -> 0 <= lsh_l t ->
  Z.of_nat (length hashes) >= lsh_k t * lsh_l t ->
  lsh_HashesToIndex hf t hashes =
    Ok (map (fun i => wrap64 (u64 (digits_value (2^b) (window (lsh_k t) i hashes)))) (seqZ 0 (lsh_l t))).
Proof.
  intros Hb Hk Hl Hlen. unfold lsh_HashesToIndex, make_slice.
  destruct (Z.ltb_spec (lsh_l t) 0); [lia|]. cbn [mbind res_bind].
  rewrite replicate_length, Z2Nat.id by done.
  apply mapM_res_Forall2. change map with (@fmap list _). apply Forall2_fmap_r, Forall_Forall2_diag, Forall_forall.
  intros i Hi%elem_of_seqZ. eapply table_index_positional; [done|done| |exact Hlen]. lia.
Qed.

Lemma hash_digit_range hf t hashes i index j r :
  0 <= index < 2^64 -> hash_digit hf t hashes i index j = Ok r -> 0 <= r < 2^64.
Proof.
  intros Hi. unfold hash_digit. destruct hf;
    repeat match goal with
    | |- context [sget ?a ?b] => destruct (sget a b); [simpl|done]
    | |- context [shl64 ?a ?b] => destruct (shl64 a b); [simpl|done]
    end; intros [= <-]; try apply u64_range; done.
Qed.

Lemma foldM_range hf t hashes i js s s' :
  0 <= s < 2^64 -> foldM (hash_digit hf t hashes i) s js = Ok s' -> 0 <= s' < 2^64.
Proof.
  revert s. induction js as [|j js IH]; intros s Hs; simpl.
  - by intros [= <-].
  - destruct (hash_digit hf t hashes i s j) as [s1|] eqn:E; [|done].
    apply IH. by eapply hash_digit_range.
Qed.

Lemma land_mask_range a rp :
  0 <= a -> 0 <= rp <= 62 ->
  0 <= Z.land a (u64 (2^rp - 1)) < 2^rp.
Proof.
  intros Ha Hrp. pose proof (Z.pow_pos_nonneg 2 rp ltac:(lia) ltac:(lia)).
  pose proof (Z.pow_le_mono_r 2 rp 62 ltac:(lia) ltac:(lia)).
  rewrite u64_small by lia.
  replace (2^rp - 1) with (Z.ones rp) by (rewrite Z.ones_equiv; lia).
  rewrite Z.land_ones by lia. apply Z.mod_pos_bound. lia.
Qed.

Lemma table_index_minhash t hashes i x :
  0 <= lsh_rangePow t <= 62 ->
  table_index DensifiedMinhashFunction t hashes i = Ok x -> 0 <= x < 2^lsh_rangePow t.
Proof.
  intros Hrp. unfold table_index.
  destruct (foldM _ 0 _) as [s|] eqn:E; [|done]. simpl.
  apply foldM_range in E; [|lia].
  replace 1 with (u64 1) by done. rewrite shl64_mul by lia. cbn [mbind res_bind].
  pose proof (Z.pow_pos_nonneg 2 (lsh_rangePow t) ltac:(lia) ltac:(lia)).
  pose proof (Z.pow_le_mono_r 2 (lsh_rangePow t) 62 ltac:(lia) ltac:(lia)).
  rewrite Z.mul_1_l. rewrite (u64_small (2 ^ lsh_rangePow t)) by lia.
  intros [= <-]. pose proof (land_mask_range s (lsh_rangePow t) ltac:(lia) ltac:(lia)) as HM.
  rewrite wrap64_small.
  - exact HM.
  - change (u64 1) with 1. unfold in_int64, minInt64, maxInt64. lia.
Qed.

(** Panics of HashesToIndex: exactly when hashes (or rand1) are too short. *)
Lemma hash_digit_total hf t hashes i index j :
  0 <= j < lsh_k t -> 0 <= i < lsh_l t ->
  Z.of_nat (length hashes) >= lsh_k t * lsh_l t ->
  Z.of_nat (length (lsh_rand1 t)) >= lsh_k t * lsh_l t ->
  exists r, hash_digit hf t hashes i index j = Ok r.
Proof.
  intros Hj Hi Hh Hr.
  destruct (sget_total hashes (lsh_k t * i + j)) as (h & Eh & _); [nia|].
  destruct (sget_total (lsh_rand1 t) (lsh_k t * i + j)) as (r & Er & _); [nia|].
  unfold hash_digit. destruct hf; rewrite ?Eh, ?Er; simpl; rewrite ?Eh; simpl.
  - unfold logBinSize. rewrite shl64_mul by lia. simpl; eauto.
  - unfold logBinSize. rewrite shl64_mul by lia. simpl; eauto.
  - eauto.
  - rewrite shl64_mul by lia. simpl; eauto.
  - eauto.
Qed.

Lemma HashesToIndex_total hf t hashes :
  0 <= lsh_l t -> 0 <= lsh_rangePow t ->
  Z.of_nat (length hashes) >= lsh_k t * lsh_l t ->
  Z.of_nat (length (lsh_rand1 t)) >= lsh_k t * lsh_l t ->
  exists ix, lsh_HashesToIndex hf t hashes = Ok ix /\ length ix = Z.to_nat (lsh_l t).
Proof.
  intros Hl Hrp Hh Hr. unfold lsh_HashesToIndex, make_slice.
  destruct (Z.ltb_spec (lsh_l t) 0); [lia|]. cbn [mbind res_bind].
  rewrite replicate_length, Z2Nat.id by done.
  destruct (mapM_res_total (table_index hf t hashes) (seqZ 0 (lsh_l t))) as [ix Hix].
  - intros i Hi%elem_of_seqZ. unfold table_index.
    destruct (foldM_inv (fun _ => True) (hash_digit hf t hashes i) (seqZ 0 (lsh_k t)) 0) as (s & -> & _); [done| |].
    + intros s j _ Hj%elem_of_seqZ.
      destruct (hash_digit_total hf t hashes i s j) as [r Er]; [lia|lia|done|done|]. eauto.
    + simpl. destruct hf; simpl; eauto.
      replace 1 with (u64 1) by done. rewrite shl64_mul by lia. simpl. eauto.
  - exists ix. split; [done|]. apply mapM_res_length in Hix. by rewrite seqZ_length in Hix.
Qed.

Lemma hash_digit_ext hf t hashes hashes' i index j :
  (0 <= j < lsh_k t -> sget hashes (lsh_k t * i + j) = sget hashes' (lsh_k t * i + j)) ->
  0 <= j < lsh_k t ->
  hash_digit hf t hashes i index j = hash_digit hf t hashes' i index j.
Proof. intros E Hj. unfold hash_digit. by rewrite E. Qed.

Lemma table_index_ext hf t hashes hashes' i :
  (forall j, 0 <= j < lsh_k t -> sget hashes (lsh_k t * i + j) = sget hashes' (lsh_k t * i + j)) ->
  table_index hf t hashes i = table_index hf t hashes' i.
Proof.
  intros E. unfold table_index.
  enough (HF : forall js s, (forall j, j ∈ js -> 0 <= j < lsh_k t) ->
     foldM (hash_digit hf t hashes i) s js = foldM (hash_digit hf t hashes' i) s js).
  { rewrite HF; [done|]. intros j Hj%elem_of_seqZ. lia. }
  induction js as [|j js IH]; intros s Hjs; cbn [foldM]; [done|].
  rewrite (hash_digit_ext hf t hashes hashes') by (try intros; try apply E; apply Hjs; left).
  destruct (hash_digit hf t hashes' i s j); [|done]. apply IH. intros. apply Hjs. by right.
Qed.

Lemma HashesToIndex_local hf t hashes hashes' ix ix' i :
  0 <= lsh_k t -> 0 <= i < lsh_l t ->
  lsh_HashesToIndex hf t hashes = Ok ix -> lsh_HashesToIndex hf t hashes' = Ok ix' ->
  window (lsh_k t) i hashes = window (lsh_k t) i hashes' ->
  ix !! Z.to_nat i = ix' !! Z.to_nat i /\ is_Some (ix !! Z.to_nat i).
Proof.
  intros Hk Hi. unfold lsh_HashesToIndex, make_slice.
  destruct (Z.ltb_spec (lsh_l t) 0); [lia|]. cbn [mbind res_bind].
  rewrite replicate_length, Z2Nat.id by lia. intros H1 H2 Hw.
  destruct (mapM_res_lookup _ _ _ (Z.to_nat i) i H1) as (x & -> & Ex); [rewrite lookup_seqZ; lia|].
  destruct (mapM_res_lookup _ _ _ (Z.to_nat i) i H2) as (y & -> & Ey); [rewrite lookup_seqZ; lia|].
  split; [|eauto]. f_equal.
  assert (HE : table_index hf t hashes i = table_index hf t hashes' i).
  { apply table_index_ext. intros j Hj. unfold sget.
    destruct (_ <? 0); [done|]. rewrite <-!window_lookup by lia. by rewrite Hw. }
  congruence.
Qed.

Lemma HashesToIndex_short_panics hf t hashes :
  hf <> HashOther -> 0 < lsh_k t -> 0 < lsh_l t ->
  Z.of_nat (length hashes) < lsh_k t * lsh_l t ->
  Z.of_nat (length (lsh_rand1 t)) = lsh_k t * lsh_l t ->
  exists p, lsh_HashesToIndex hf t hashes = Panic p.
Proof.
  intros Hhf Hk Hl Hlen Hr. unfold lsh_HashesToIndex, make_slice.
  destruct (Z.ltb_spec (lsh_l t) 0); [lia|]. cbn [mbind res_bind].
  rewrite replicate_length, Z2Nat.id by lia.
  destruct (mapM_res (table_index hf t hashes) (seqZ 0 (lsh_l t))) as [ix|] eqn:E; [|eauto].
  exfalso.
  (* the last table reads hash k*l-1, which does not exist *)
  destruct (mapM_res_lookup _ _ _ (Z.to_nat (lsh_l t - 1)) (lsh_l t - 1) E) as (x & _ & Ex).
  { rewrite lookup_seqZ. lia. }
  unfold table_index in Ex.
  destruct (foldM _ 0 (seqZ 0 (lsh_k t))) as [s|] eqn:Ef; [|done]. clear Ex.
  replace (seqZ 0 (lsh_k t)) with (seqZ 0 (lsh_k t - 1) ++ [lsh_k t - 1]) in Ef.
  2:{ replace (lsh_k t) with ((lsh_k t - 1) + 1) at 3 by lia. rewrite seqZ_app by lia. f_equal. }
  rewrite foldM_snoc in Ef. destruct (foldM _ 0 _) as [s1|]; [|done].
  unfold hash_digit in Ef.
  assert (Hp : sget hashes (lsh_k t * (lsh_l t - 1) + (lsh_k t - 1)) = Panic PIndex).
  { apply sget_panic. right. nia. }
  destruct (sget_total (lsh_rand1 t) (lsh_k t * (lsh_l t - 1) + (lsh_k t - 1))) as (rv & Hrv & _); [nia|].
  destruct hf; cbn [mbind res_bind] in Ef; rewrite ?Hrv in Ef; cbn [mbind res_bind] in Ef; rewrite ?Hp in Ef; done.
Qed.

(** Digit bounds for DWTA digits. *)
Lemma digits_value_max b ds :
  0 < b -> Forall (fun d => 0 <= d <= 7) ds ->
  0 <= (b - 1) * digits_value b ds <= 7 * (b ^ Z.of_nat (length ds) - 1).
Proof.
  intros Hb. induction 1 as [|d ds Hd _ IH]; cbn [digits_value length]; [lia|].
  rewrite Nat2Z.inj_succ, Z.pow_succ_r by lia.
  assert (0 < b ^ Z.of_nat (length ds)) by (apply Z.pow_pos_nonneg; lia).
  set (p := b ^ Z.of_nat (length ds)) in *. set (q := (b - 1) * p).
  assert (0 <= q) by (unfold q; nia). assert (0 <= d * q <= 7 * q) by nia.
  replace ((b - 1) * (d * p + digits_value b ds)) with (d * q + (b - 1) * digits_value b ds) by (unfold q; ring).
  replace (b * p) with (q + p) by (unfold q; ring). lia.
Qed.

Lemma digits_value_replicate7 b n :
  0 < b -> (b - 1) * digits_value b (replicate n 7) = 7 * (b ^ Z.of_nat n - 1).
Proof.
  intros Hb. induction n as [|n IH]; cbn [digits_value replicate]; [change (Z.of_nat 0) with 0; rewrite Z.pow_0_r; lia|].
  rewrite replicate_length, Nat2Z.inj_succ, Z.pow_succ_r by lia. nia.
Qed.

Lemma lsh_New_panics k l rp g :
  (0 <= l /\ (l = 0 \/ 0 <= rp /\ rp <> 63) /\ 0 <= wrap64 (k * l)) <->
  exists r, lsh_New k l rp g = Ok r.
Proof.
  unfold lsh_New, make_slice. destruct (Z.ltb_spec l 0).
  { split; [lia|]. intros [r Hr]. done. }
  cbn [mbind res_bind].
  assert (Hsz : (0 <= rp /\ rp <> 63) <->
     exists row, (size ← int_pow2 rp; if size <? 0 then Panic PMakeSlice else Ok (replicate (Z.to_nat size) fifo_New)) = Ok row).
  { unfold int_pow2. destruct (Z.ltb_spec rp 0).
    { split; [lia|]. intros [row Hrow]. done. }
    destruct (Z.leb_spec 64 rp).
    { split; [|lia]. intros _. eexists. done. }
    cbn [mbind res_bind].
    destruct (decide (rp = 63)) as [->|Hne].
    { split; [lia|]. intros [row Hrow]. done. }
    assert (Hs : 2^rp <= 2^62) by (apply Z.pow_le_mono_r; lia).
    pose proof (Z.pow_pos_nonneg 2 rp ltac:(lia) ltac:(lia)).
    rewrite wrap64_small by (unfold in_int64, minInt64, maxInt64; lia).
    destruct (Z.ltb_spec (2^rp) 0); [lia|]. split; [eauto|lia]. }
  match goal with |- context [mapM_res ?f _] => set (F := f) end.
  destruct (mapM_res F (replicate (Z.to_nat l) ())) as [bs|p] eqn:E.
  - cbn [mbind res_bind]. destruct (Z.ltb_spec (wrap64 (k * l)) 0).
    { split; [lia|]. intros [r Hr]. done. }
    cbn [mbind res_bind]. destruct (oddRandoms _ g) as [rs g'].
    split; [eauto|]. intros _. split; [done|]. split; [|done].
    destruct (decide (l = 0)); [by left|right].
    apply Hsz. destruct (mapM_res_lookup _ _ _ 0 tt E) as (row & _ & Hrow); [|by exists row].
    apply lookup_replicate. split; [done|lia].
  - split; [|intros [r Hr]; done].
    intros (_ & [->|Hrp] & _); [done|].
    apply mapM_res_panic in E as ([] & _ & E). apply Hsz in Hrp as [row Hrow].
    unfold F in E. rewrite Hrow in E. done.
Qed.

Lemma lsh_New_inv k l rp g t g' :
  0 <= rp <= 62 -> lsh_New k l rp g = Ok (t, g') ->
  LInv l rp (fun _ _ => []) t /\ lsh_k t = k /\ lsh_rangePow t = rp /\
  Z.of_nat (length (lsh_rand1 t)) = wrap64 (k * l) /\
  Forall (fun z => 0 < z <= maxInt64 /\ Z.odd z = true) (lsh_rand1 t).
Proof.
  intros Hrp. unfold lsh_New, make_slice.
  destruct (Z.ltb_spec l 0); [done|]. cbn [mbind res_bind].
  rewrite int_pow2_small by done. cbn [mbind res_bind].
  pose proof (Z.pow_pos_nonneg 2 rp).
  destruct (Z.ltb_spec (2^rp) 0); [lia|].
  assert (Hm : mapM_res (fun _ : () => Ok (replicate (Z.to_nat (2^rp)) fifo_New)) (replicate (Z.to_nat l) ())
     = Ok (replicate (Z.to_nat l) (replicate (Z.to_nat (2^rp)) fifo_New))).
  { apply mapM_res_Forall2. apply Forall2_same_length_lookup_2; rewrite ?replicate_length; [done|].
    intros i x y _ [-> _]%lookup_replicate. done. }
  rewrite Hm. cbn [mbind res_bind].
  destruct (Z.ltb_spec (wrap64 (k * l)) 0); [done|]. cbn [mbind res_bind]. rewrite replicate_length.
  destruct (oddRandoms (Z.to_nat (wrap64 (k * l))) g) as [rs g1] eqn:E.
  apply oddRandoms_spec in E as [Hl ?]. intros [= <- <-]. cbn [lsh_k lsh_rangePow lsh_rand1].
  split; [|split; [done|split; [done|split; [lia|done]]]].
  split; cbn [lsh_buckets lsh_l]; [done|done|done|by rewrite replicate_length| |].
  - intros i row [-> _]%lookup_replicate. by rewrite replicate_length.
  - intros i row j b [-> _]%lookup_replicate [-> _]%lookup_replicate. apply FInv_init.
Qed.

Lemma lsh_step_ok_iff l rp H t o :
  LInv l rp H t -> (valid_op l rp o <-> exists t', lsh_step t o = Ok t').
Proof.
  intros HI. split.
  - intros Hv. destruct (lsh_step_spec _ _ _ _ _ HI Hv) as (t' & ? & _). eauto.
  - intros [t' Ht]. destruct o as [indices id|tb i id|]; cbn [lsh_step valid_op] in *; [| |done].
    + eapply (lsh_Add_panics _ _ _ _ _ id HI).
      destruct (lsh_Add t indices id); [eauto|done].
    + eapply (lsh_addAt_panics _ _ _ _ _ _ id HI). unfold lsh_AddSingle in Ht.
      destruct (lsh_addAt t tb i id); [eauto|done].
Qed.

Lemma lsh_run_ok_iff l rp t ops :
  LInv l rp (fun _ _ => []) t ->
  (Forall (valid_op l rp) ops <-> exists t', lsh_run t ops = Ok t').
Proof.
  intros HI. split.
  - intros Hv. destruct (lsh_run_spec _ _ _ _ HI Hv) as (t' & ? & _). eauto.
  - induction ops as [|o ops IH] using rev_ind; [constructor|].
    intros [t' Ht]. unfold lsh_run in *. rewrite foldM_snoc in Ht.
    destruct (foldM lsh_step t ops) as [t1|] eqn:E1; [|done].
    assert (Hv : Forall (valid_op l rp) ops) by eauto.
    apply Forall_app. split; [done|]. constructor; [|constructor].
    destruct (lsh_run_spec _ _ _ _ HI Hv) as (t1' & E1' & HI1 & _).
    unfold lsh_run in E1'. rewrite E1 in E1'. injection E1' as <-.
    eapply lsh_step_ok_iff; eauto.
Qed.

Lemma lsh_reachable k l rp g t0 g' ops t :
  0 <= rp <= 62 -> lsh_New k l rp g = Ok (t0, g') -> lsh_run t0 ops = Ok t ->
  LInv l rp (bops l ops) t /\ lsh_k t = k /\ lsh_rangePow t = rp /\ lsh_rand1 t = lsh_rand1 t0.
Proof.
  intros Hrp E0 E. destruct (lsh_New_inv _ _ _ _ _ _ Hrp E0) as (HI0 & Hk & Hr & _).
  assert (Hv : Forall (valid_op l rp) ops) by (eapply lsh_run_ok_iff; eauto).
  destruct (lsh_run_spec _ _ _ _ HI0 Hv) as (t' & E' & HI & ? & ? & ?).
  rewrite E in E'. injection E' as <-. split; [done|]. split; [congruence|]. split; congruence.
Qed.

Lemma lsh_map_refinement k l rp g t0 g' ops t :
  0 <= rp <= 62 -> lsh_New k l rp g = Ok (t0, g') -> lsh_run t0 ops = Ok t ->
  forall table index, 0 <= table < l -> 0 <= index < 2^rp ->
  exists b, fifo_run fifo_New (FAdd <$> routed ops table index) = Ok b /\
    (forall slot, lsh_Retrieve t table index slot = fifo_Retrieve b slot) /\
    (forall indices rs, lsh_RetrieveRaw t indices = Ok rs ->
        length rs = Z.to_nat l /\
        (indices !! Z.to_nat table = Some index -> rs !! Z.to_nat table = Some (fifo_contents b))) /\
    (forall indices id rs t', lsh_Add t indices id = Ok (rs, t') ->
        indices !! Z.to_nat table = Some index ->
        exists slot b', rs !! Z.to_nat table = Some slot /\ fifo_Add b id = Ok (slot, b')) /\
    (forall id slot t', lsh_AddSingle t table index id = Ok (slot, t') ->
        exists b', fifo_Add b id = Ok (slot, b')).
Proof.
  intros Hrp E0 E table index Ht Hi.
  destruct (lsh_reachable _ _ _ _ _ _ _ _ Hrp E0 E) as (HI & _).
  destruct (fifo_run_spec (FAdd <$> routed ops table index)) as (b & Eb & HF).
  exists b. split; [done|].
  destruct (LInv_lookup _ _ _ _ _ _ HI Ht Hi) as (row & b' & E1 & E2 & L1 & L2 & _ & HF').
  assert (Hadds : adds_since_reset (bops l ops table index) = adds_since_reset (FAdd <$> routed ops table index)).
  { rewrite bops_adds. symmetry. apply (adds_app_adds [] (routed ops table index)). }
  split; [|split; [|split]].
  - intros slot. unfold lsh_Retrieve. rewrite E1. simpl. rewrite E2. simpl.
    by apply (FInv_same_Retrieve _ _ _ _ _ HF' HF).
  - intros indices rs Hrs.
    assert (Hv : valid_indices l rp indices) by (eapply lsh_RetrieveRaw_panics; eauto).
    destruct (lsh_RetrieveRaw_spec _ _ _ _ _ HI Hv) as (rs' & Hrs' & Hlen & Hc).
    rewrite Hrs in Hrs'. injection Hrs' as <-. split; [done|].
    intros Hix. destruct (Hc table index Ht Hix) as (b2 & -> & HF2).
    f_equal. by apply (FInv_same_contents _ _ _ _ HF2 HF).
  - intros indices id rs t' Ha Hix.
    assert (Hv : valid_indices l rp indices) by (eapply (lsh_Add_panics _ _ _ _ _ id HI); eauto).
    destruct (lsh_Add_spec _ _ _ _ _ id HI Hv) as (rs' & t2 & Ha' & _ & _ & Hs & _).
    rewrite Ha in Ha'. injection Ha' as <- <-.
    destruct (fifo_Add_spec _ _ id HF) as (b2 & Eb2 & _).
    eexists _, b2. split; [by apply Hs|]. by rewrite Hadds.
  - intros id slot t' Ha. unfold lsh_AddSingle in Ha.
    destruct (lsh_addAt_spec _ _ _ _ table index id HI Ht Hi) as (t2 & Ha' & _).
    rewrite Ha in Ha'. injection Ha' as -> <-.
    destruct (fifo_Add_spec _ _ id HF) as (b2 & Eb2 & _). exists b2. by rewrite Hadds.
Qed.

(** Small bounds used for the (D)WTA encoding. *)
Lemma dwta_index_bound ds :
  Forall (fun d => 0 <= d <= 7) ds ->
  0 <= digits_value 4 ds <= 7 * (4 ^ Z.of_nat (length ds) - 1) / 3.
Proof.
  intros H. pose proof (digits_value_max 4 ds ltac:(lia) H). lia.
Qed.

Lemma dwta_index_max n : digits_value 4 (replicate n 7) = 7 * (4 ^ Z.of_nat n - 1) / 3.
Proof.
  pose proof (digits_value_replicate7 4 n ltac:(lia)). lia.
Qed.

Lemma srp_index_max n : digits_value 2 (replicate n 1) = 2 ^ Z.of_nat n - 1.
Proof.
  induction n as [|n IH]; [done|]. cbn [replicate digits_value].
  rewrite replicate_length, Nat2Z.inj_succ, Z.pow_succ_r by lia. lia.
Qed.

(** Positional encodings without overflow. *)
Lemma wrap_u64_small z : 0 <= z < 2^63 -> wrap64 (u64 z) = z.
Proof.
  intros. rewrite u64_small by lia. apply wrap64_small. unfold in_int64, minInt64, maxInt64. lia.
Qed.

Lemma window_Forall (P : Z -> Prop) k i hashes : Forall P hashes -> Forall P (window k i hashes).
Proof. intros. unfold window. by apply Forall_take, Forall_drop. Qed.

Lemma window_replicate k i l (x : Z) :
  0 <= k -> 0 <= i < l -> window k i (replicate (Z.to_nat (k * l)) x) = replicate (Z.to_nat k) x.
Proof.
  intros. unfold window. rewrite drop_replicate, take_replicate. f_equal. nia.
Qed.

Lemma HashesToIndex_digits hf b t hashes (D : Z) :
  hf_bits hf = Some b -> 0 <= lsh_k t -> 0 <= lsh_l t ->
  Z.of_nat (length hashes) >= lsh_k t * lsh_l t ->
  (forall i, 0 <= i < lsh_l t -> 0 <= digits_value (2^b) (window (lsh_k t) i hashes) < 2^63) ->
  exists ix, lsh_HashesToIndex hf t hashes = Ok ix /\ length ix = Z.to_nat (lsh_l t) /\
    forall i, 0 <= i < lsh_l t -> ix !! Z.to_nat i = Some (digits_value (2^b) (window (lsh_k t) i hashes)).
Proof.
  intros Hb Hk Hl Hlen HR. rewrite (HashesToIndex_positional hf b) by done.
  eexists. split; [done|]. split.
  - by rewrite map_length, seqZ_length.
  - intros i Hi. apply list_lookup_fmap_Some. exists i. split; [apply lookup_seqZ; lia|].
    by rewrite wrap_u64_small by auto.
Qed.

Lemma srp_encoding t hashes :
  0 <= lsh_k t <= 62 -> 0 <= lsh_l t ->
  Z.of_nat (length hashes) = lsh_k t * lsh_l t ->
  Forall (fun b => b = 0 \/ b = 1) hashes ->
  exists ix, lsh_HashesToIndex SparseRandomProjectionHashFunction t hashes = Ok ix /\
    length ix = Z.to_nat (lsh_l t) /\
    forall i, 0 <= i < lsh_l t ->
      let bits := window (lsh_k t) i hashes in
      ix !! Z.to_nat i = Some (digits_value 2 bits) /\ 0 <= digits_value 2 bits < 2 ^ lsh_k t.
Proof.
  intros Hk Hl Hlen HF.
  assert (Hr : forall i, 0 <= i < lsh_l t -> 0 <= digits_value 2 (window (lsh_k t) i hashes) < 2 ^ lsh_k t).
  { intros i Hi. pose proof (digits_value_bound 2 (window (lsh_k t) i hashes) ltac:(lia)) as HB.
    rewrite (window_length _ _ (lsh_l t)) in HB by lia. rewrite Z2Nat.id in HB by lia. apply HB.
    eapply Forall_impl; [by apply window_Forall|]. simpl. lia. }
  destruct (HashesToIndex_digits SparseRandomProjectionHashFunction 1 t hashes 0) as (ix & E & Hl' & Hix); try done; try lia.
  - intros i Hi. change (2^1) with 2. specialize (Hr i Hi).
    pose proof (Z.pow_le_mono_r 2 (lsh_k t) 62). lia.
  - exists ix. split; [done|]. split; [done|]. intros i Hi. cbv zeta. split; [by apply Hix|by apply Hr].
Qed.

Lemma digits_inj2 ds ds' :
  length ds = length ds' -> Forall (fun b => b = 0 \/ b = 1) ds -> Forall (fun b => b = 0 \/ b = 1) ds' ->
  digits_value 2 ds = digits_value 2 ds' -> ds = ds'.
Proof.
  intros Hl H H'. apply digits_value_inj; [lia|done| |];
    (eapply Forall_impl; [done|]; simpl; lia).
Qed.

Lemma srp_lookup_safe k l rp g t0 g' ops t :
  0 <= rp <= 62 -> 0 <= k <= 62 -> lsh_New k l rp g = Ok (t0, g') -> lsh_run t0 ops = Ok t ->
  (k <= rp -> forall hashes, Z.of_nat (length hashes) = k * l -> Forall (fun b => b = 0 \/ b = 1) hashes ->
     exists ix rs, lsh_HashesToIndex SparseRandomProjectionHashFunction t hashes = Ok ix /\
       lsh_RetrieveRaw t ix = Ok rs) /\
  (rp < k -> 0 < l -> exists hashes ix, Z.of_nat (length hashes) = k * l /\
     Forall (fun b => b = 0 \/ b = 1) hashes /\
     lsh_HashesToIndex SparseRandomProjectionHashFunction t hashes = Ok ix /\
     exists p, lsh_RetrieveRaw t ix = Panic p).
Proof.
  intros Hrp Hk E0 E. destruct (lsh_reachable _ _ _ _ _ _ _ _ Hrp E0 E) as (HI & Hkt & Hrpt & _).
  pose proof (li_l _ _ _ _ HI) as Hlt. pose proof (li_l0 _ _ _ _ HI) as Hl0. split.
  - intros Hle hashes Hlen HF. destruct (srp_encoding t hashes) as (ix & Eix & Hlix & Hix); try done; try (rewrite ?Hkt, ?Hlt; lia).
    assert (Hv : valid_indices l rp ix).
    { intros i Hi. destruct (Hix i) as [H1 H2]; [lia|]. eexists. split; [done|].
      rewrite Hkt in *. pose proof (Z.pow_le_mono_r 2 k rp). lia. }
    apply (lsh_RetrieveRaw_panics _ _ _ _ _ HI) in Hv as [rs Hrs]. eauto.
  - intros Hlt' Hl. set (hashes := replicate (Z.to_nat (k * l)) 1).
    destruct (srp_encoding t hashes) as (ix & Eix & Hlix & Hix); try lia.
    { unfold hashes. rewrite replicate_length. nia. }
    { apply Forall_replicate. by right. }
    exists hashes, ix. split; [unfold hashes; rewrite replicate_length; nia|].
    split; [apply Forall_replicate; by right|]. split; [done|].
    destruct (lsh_RetrieveRaw t ix) as [rs|p] eqn:Er; [|eauto]. exfalso.
    assert (Hv : valid_indices l rp ix) by (eapply lsh_RetrieveRaw_panics; eauto).
    destruct (Hv 0) as (x & Hx & Hxr); [lia|].
    destruct (Hix 0) as [H1 _]; [lia|]. rewrite Hx in H1. injection H1 as ->.
    rewrite Hkt in Hxr. unfold hashes in Hxr. rewrite (window_replicate k 0 l) in Hxr by lia.
    rewrite srp_index_max, Z2Nat.id in Hxr by lia.
    assert (2 ^ (rp + 1) <= 2 ^ k) by (apply Z.pow_le_mono_r; lia).
    rewrite Z.pow_add_r in * by lia. pose proof (Z.pow_pos_nonneg 2 rp). lia.
Qed.

Definition is_wta (hf : HashFunctionType) : Prop :=
  hf = WtaHashFunction \/ hf = DensifiedWtaHashFunction.

Lemma dwta_encoding hf t hashes :
  is_wta hf ->
  0 <= lsh_k t <= 29 -> 0 <= lsh_l t ->
  Z.of_nat (length hashes) = lsh_k t * lsh_l t ->
  Forall (fun d => 0 <= d < 8) hashes ->
  exists ix, lsh_HashesToIndex hf t hashes = Ok ix /\
    length ix = Z.to_nat (lsh_l t) /\
    forall i, 0 <= i < lsh_l t ->
      let ds := window (lsh_k t) i hashes in
      ix !! Z.to_nat i = Some (digits_value 4 ds) /\
      0 <= digits_value 4 ds <= 7 * (4 ^ lsh_k t - 1) / 3.
Proof.
  intros Hhf Hk Hl Hlen HF.
  assert (Hr : forall i, 0 <= i < lsh_l t -> 0 <= digits_value 4 (window (lsh_k t) i hashes) <= 7 * (4 ^ lsh_k t - 1) / 3).
  { intros i Hi. pose proof (dwta_index_bound (window (lsh_k t) i hashes)) as HB.
    rewrite (window_length _ _ (lsh_l t)) in HB by lia. rewrite Z2Nat.id in HB by lia. apply HB.
    eapply Forall_impl; [by apply window_Forall|]. simpl. lia. }
  assert (Hb : hf_bits hf = Some 2) by (destruct Hhf as [-> | ->]; done).
  destruct (HashesToIndex_digits hf 2 t hashes 0) as (ix & E & Hl' & Hix); try done; try lia.
  - intros i Hi. change (2^2) with 4. specialize (Hr i Hi).
    assert (4 ^ lsh_k t <= 4 ^ 29) by (apply Z.pow_le_mono_r; lia). lia.
  - exists ix. split; [done|]. split; [done|]. intros i Hi. cbv zeta. split; [by apply Hix|by apply Hr].
Qed.

Lemma dwta_lookup_safe hf k l rp g t0 g' ops t :
  is_wta hf ->
  0 <= rp <= 62 -> 0 <= k <= 29 -> lsh_New k l rp g = Ok (t0, g') -> lsh_run t0 ops = Ok t ->
  (7 * (4 ^ k - 1) / 3 < 2 ^ rp -> forall hashes, Z.of_nat (length hashes) = k * l -> Forall (fun d => 0 <= d < 8) hashes ->
     exists ix rs, lsh_HashesToIndex hf t hashes = Ok ix /\ lsh_RetrieveRaw t ix = Ok rs) /\
  (2 ^ rp <= 7 * (4 ^ k - 1) / 3 -> 0 < l -> exists hashes ix, Z.of_nat (length hashes) = k * l /\
     Forall (fun d => 0 <= d < 8) hashes /\
     lsh_HashesToIndex hf t hashes = Ok ix /\
     exists p, lsh_RetrieveRaw t ix = Panic p).
Proof.
  intros Hhf Hrp Hk E0 E. destruct (lsh_reachable _ _ _ _ _ _ _ _ Hrp E0 E) as (HI & Hkt & Hrpt & _).
  pose proof (li_l _ _ _ _ HI) as Hlt. pose proof (li_l0 _ _ _ _ HI) as Hl0. split.
  - intros Hle hashes Hlen HF. destruct (dwta_encoding hf t hashes) as (ix & Eix & Hlix & Hix); try done; try (rewrite ?Hkt, ?Hlt; lia).
    assert (Hv : valid_indices l rp ix).
    { intros i Hi. destruct (Hix i) as [H1 H2]; [lia|]. eexists. split; [done|].
      rewrite Hkt in *. lia. }
    apply (lsh_RetrieveRaw_panics _ _ _ _ _ HI) in Hv as [rs Hrs]. eauto.
  - intros Hlt' Hl. set (hashes := replicate (Z.to_nat (k * l)) 7).
    destruct (dwta_encoding hf t hashes) as (ix & Eix & Hlix & Hix); try done; try lia.
    { unfold hashes. rewrite replicate_length. nia. }
    { apply Forall_replicate. lia. }
    exists hashes, ix. split; [unfold hashes; rewrite replicate_length; nia|].
    split; [apply Forall_replicate; lia|]. split; [done|].
    destruct (lsh_RetrieveRaw t ix) as [rs|p] eqn:Er; [|eauto]. exfalso.
    assert (Hv : valid_indices l rp ix) by (eapply lsh_RetrieveRaw_panics; eauto).
    destruct (Hv 0) as (x & Hx & Hxr); [lia|].
    destruct (Hix 0) as [H1 _]; [lia|]. rewrite Hx in H1. injection H1 as ->.
    rewrite Hkt in Hxr. unfold hashes in Hxr. rewrite (window_replicate k 0 l) in Hxr by lia.
    rewrite dwta_index_max, Z2Nat.id in Hxr by lia. lia.
Qed.

Lemma minhash_in_range k l rp g t0 g' ops t hashes :
  0 <= rp <= 62 -> 0 <= k -> k * l < 2^63 -> lsh_New k l rp g = Ok (t0, g') -> lsh_run t0 ops = Ok t ->
  Z.of_nat (length hashes) >= k * l ->
  exists ix rs, lsh_HashesToIndex DensifiedMinhashFunction t hashes = Ok ix /\
    length ix = Z.to_nat l /\ Forall (fun x => 0 <= x < 2^rp) ix /\ lsh_RetrieveRaw t ix = Ok rs.
Proof.
  intros Hrp Hk Hkl E0 E Hlen. destruct (lsh_reachable _ _ _ _ _ _ _ _ Hrp E0 E) as (HI & Hkt & Hrpt & Hr1).
  pose proof (li_l _ _ _ _ HI) as Hlt. pose proof (li_l0 _ _ _ _ HI) as Hl0.
  destruct (lsh_New_inv _ _ _ _ _ _ Hrp E0) as (_ & _ & _ & Hr & _).
  rewrite wrap64_small in Hr by (unfold in_int64, minInt64, maxInt64; nia).
  destruct (HashesToIndex_total DensifiedMinhashFunction t hashes) as (ix & Eix & Hlix);
    rewrite ?Hkt, ?Hlt, ?Hr1; try lia.
  assert (HF : Forall (fun x => 0 <= x < 2^rp) ix).
  { unfold lsh_HashesToIndex, make_slice in Eix. rewrite Hlt in Eix.
    destruct (Z.ltb_spec l 0); [lia|]. cbn [mbind res_bind] in Eix.
    apply mapM_res_Forall2 in Eix. apply Forall_lookup. intros i x Hx.
    destruct (Forall2_lookup_r _ _ _ _ _ Eix Hx) as (j & _ & Ej). simpl in Ej.
    rewrite <-Hrpt. eapply table_index_minhash; [|done]. lia. }
  destruct (proj1 (lsh_RetrieveRaw_panics _ _ _ _ ix HI)) as [rs Hrs].
  { intros i Hi. destruct (lookup_lt_is_Some_2 ix (Z.to_nat i)) as [x Hx]; [lia|].
    exists x. split; [done|]. by eapply Forall_lookup in HF. }
  rewrite Hlt in Hlix. eauto 10.
Qed.

Lemma lsh_calls_panic_iff k l rp g t0 g' :
  0 <= rp <= 62 -> lsh_New k l rp g = Ok (t0, g') ->
  (forall ops, (exists t, lsh_run t0 ops = Ok t) <-> Forall (valid_op l rp) ops) /\
  (forall ops t, lsh_run t0 ops = Ok t ->
    (forall indices id, (exists r, lsh_Add t indices id = Ok r) <-> valid_indices l rp indices) /\
    (forall indices, (exists r, lsh_RetrieveRaw t indices = Ok r) <-> valid_indices l rp indices) /\
    (forall table index id, (exists r, lsh_AddSingle t table index id = Ok r) <->
        0 <= table < l /\ 0 <= index < 2^rp) /\
    (forall table index slot, (exists r, lsh_Retrieve t table index slot = Ok r) <->
        0 <= table < l /\ 0 <= index < 2^rp /\ 0 <= slot)).
Proof.
  intros Hrp E0. split.
  - intros ops. symmetry. apply lsh_run_ok_iff. by eapply lsh_New_inv.
  - intros ops t E. destruct (lsh_reachable _ _ _ _ _ _ _ _ Hrp E0 E) as (HI & _).
    split; [|split; [|split]]; intros; symmetry.
    + by eapply lsh_Add_panics.
    + by eapply lsh_RetrieveRaw_panics.
    + by eapply lsh_addAt_panics.
    + by eapply lsh_Retrieve_panics.
Qed.

Lemma srp_index_injective t hashes hashes' ix ix' i :
  0 <= lsh_k t <= 62 -> 0 <= i < lsh_l t ->
  Z.of_nat (length hashes) = lsh_k t * lsh_l t -> Z.of_nat (length hashes') = lsh_k t * lsh_l t ->
  Forall (fun b => b = 0 \/ b = 1) hashes -> Forall (fun b => b = 0 \/ b = 1) hashes' ->
  lsh_HashesToIndex SparseRandomProjectionHashFunction t hashes = Ok ix ->
  lsh_HashesToIndex SparseRandomProjectionHashFunction t hashes' = Ok ix' ->
  ix !! Z.to_nat i = ix' !! Z.to_nat i ->
  window (lsh_k t) i hashes = window (lsh_k t) i hashes'.
Proof.
  intros Hk Hi Hl Hl' HF HF' E E' Heq.
  destruct (srp_encoding t hashes) as (jx & Ej & _ & Hj); try done; [lia|].
  destruct (srp_encoding t hashes') as (jx' & Ej' & _ & Hj'); try done; [lia|].
  rewrite E in Ej. injection Ej as <-. rewrite E' in Ej'. injection Ej' as <-.
  destruct (Hj i Hi) as [H1 _]. destruct (Hj' i Hi) as [H2 _].
  rewrite H1, H2 in Heq. injection Heq as Heq.
  apply digits_inj2; [|by apply window_Forall|by apply window_Forall|done].
  by rewrite !(window_length _ _ (lsh_l t)) by lia.
Qed.

Lemma dwta_index_injective4 t hashes hashes' ix ix' i :
  0 <= lsh_k t <= 29 -> 0 <= i < lsh_l t ->
  Z.of_nat (length hashes) = lsh_k t * lsh_l t -> Z.of_nat (length hashes') = lsh_k t * lsh_l t ->
  Forall (fun d => 0 <= d < 4) hashes -> Forall (fun d => 0 <= d < 4) hashes' ->
  lsh_HashesToIndex DensifiedWtaHashFunction t hashes = Ok ix ->
  lsh_HashesToIndex DensifiedWtaHashFunction t hashes' = Ok ix' ->
  ix !! Z.to_nat i = ix' !! Z.to_nat i ->
  window (lsh_k t) i hashes = window (lsh_k t) i hashes'.
Proof.
  intros Hk Hi Hl Hl' HF HF' E E' Heq.
  destruct (dwta_encoding DensifiedWtaHashFunction t hashes) as (jx & Ej & _ & Hj); try done; try lia.
  { by right. } { eapply Forall_impl; [exact HF|]. simpl; lia. }
  destruct (dwta_encoding DensifiedWtaHashFunction t hashes') as (jx' & Ej' & _ & Hj'); try done; try lia.
  { by right. } { eapply Forall_impl; [exact HF'|]. simpl; lia. }
  rewrite E in Ej. injection Ej as <-. rewrite E' in Ej'. injection Ej' as <-.
  destruct (Hj i Hi) as [H1 _]. destruct (Hj' i Hi) as [H2 _].
  rewrite H1, H2 in Heq. injection Heq as Heq.
  apply (digits_value_inj 4); [lia| |by apply window_Forall|by apply window_Forall|done].
  by rewrite !(window_length _ _ (lsh_l t)) by lia.
Qed.

Lemma dwta_not_injective :
  exists t hashes hashes', lsh_k t = 2 /\ lsh_l t = 1 /\
    length hashes = 2%nat /\ length hashes' = 2%nat /\
    Forall (fun d => 0 <= d < 8) hashes /\ Forall (fun d => 0 <= d < 8) hashes' /\
    hashes <> hashes' /\
    exists ix, lsh_HashesToIndex DensifiedWtaHashFunction t hashes = Ok ix /\
               lsh_HashesToIndex DensifiedWtaHashFunction t hashes' = Ok ix.
Proof.
  exists {| lsh_buckets := [[]]; lsh_k := 2; lsh_l := 1; lsh_rangePow := 6; lsh_rand1 := [1;1] |}, [0;4], [1;0].
  split; [done|]. split; [done|]. split; [done|]. split; [done|].
  split; [repeat constructor; lia|]. split; [repeat constructor; lia|]. split; [done|].
  exists [4]. split; vm_compute; reflexivity.
Qed.

Lemma HashesToIndex_panics_iff hf k l rp g t0 g' ops t hashes :
  hf <> HashOther -> 0 <= rp <= 62 -> 0 < k -> 0 < l -> k * l < 2^63 ->
  lsh_New k l rp g = Ok (t0, g') -> lsh_run t0 ops = Ok t ->
  ((exists ix, lsh_HashesToIndex hf t hashes = Ok ix) <-> k * l <= Z.of_nat (length hashes)) /\
  (forall ix, lsh_HashesToIndex hf t hashes = Ok ix -> length ix = Z.to_nat l).
Proof.
  intros Hhf Hrp Hk Hl Hkl E0 E.
  destruct (lsh_reachable _ _ _ _ _ _ _ _ Hrp E0 E) as (HI & Hkt & Hrpt & Hr1).
  pose proof (li_l _ _ _ _ HI) as Hlt.
  destruct (lsh_New_inv _ _ _ _ _ _ Hrp E0) as (_ & _ & _ & Hr & _).
  rewrite wrap64_small in Hr by (unfold in_int64, minInt64, maxInt64; nia).
  destruct (decide (k * l <= Z.of_nat (length hashes))) as [Hle|Hlt'].
  - destruct (HashesToIndex_total hf t hashes) as (ix & Eix & Hlix); rewrite ?Hkt, ?Hlt, ?Hr1; try lia.
    split; [split; eauto|]. intros ix' Eix'. rewrite Eix in Eix'. injection Eix' as <-. congruence.
  - destruct (HashesToIndex_short_panics hf t hashes) as [p Hp]; rewrite ?Hkt, ?Hlt, ?Hr1; try done; try lia.
    rewrite Hp. split; [split; [intros [ix ?]; done|lia]|done].
Qed.

Lemma lsh_rand1_odd k l rp g t g' :
  0 <= rp <= 62 -> lsh_New k l rp g = Ok (t, g') ->
  Z.of_nat (length (lsh_rand1 t)) = wrap64 (k * l) /\
  Forall (fun z => 0 < z <= maxInt64 /\ Z.odd z = true) (lsh_rand1 t).
Proof. intros Hrp E. by destruct (lsh_New_inv _ _ _ _ _ _ Hrp E) as (_ & _ & _ & ? & ?). Qed.
