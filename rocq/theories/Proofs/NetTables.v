(** After a rehash the tables list every node. *)
From Verif.Spec Require Import FifoSpec LshSpec.
From Verif.Proofs Require Import FifoProofs LshProofs.
From Verif.Proofs Require Export NetShape.
From Verif.Proofs Require LayerModes.
From Coq Require Import Lia ZifyBool ZifyNat.
Local Open Scope Z_scope.

(** * The content of a bucket *)
Section ring.
  Local Open Scope nat_scope.
  Ltac Zify.zify_post_hook ::= Z.to_euclidean_division_equations.
  Lemma newest_short h j v : length h <= 128 -> newest_in_slot h j v <-> h !! j = Some v.
  Proof.
    intros Hl. split.
    - intros (i & Hi & Hm & _). pose proof (lookup_lt_Some _ _ _ Hi). rewrite Nat.mod_small in Hm by lia. by subst.
    - intros Hj. pose proof (lookup_lt_Some _ _ _ Hj). exists j. split; [done|]. split; [apply Nat.mod_small; lia|].
      intros i' Hi'. rewrite Nat.mod_small by lia. lia.
  Qed.
  Lemma newest_long h j v : 128 < length h -> j < 128 ->
    newest_in_slot h j v <-> (if decide (j < length h mod 128) then drop (length h - 128) h !! (128 - length h mod 128 + j)
                              else drop (length h - 128) h !! (j - length h mod 128)) = Some v.
  Proof.
    intros Hl Hj.
    assert (HE : exists i, i < length h /\ length h - 128 <= i /\ i mod 128 = j /\
       (if decide (j < length h mod 128) then drop (length h - 128) h !! (128 - length h mod 128 + j)
        else drop (length h - 128) h !! (j - length h mod 128)) = h !! i).
    { destruct (decide (j < length h mod 128)).
      - exists (length h - 128 + (128 - length h mod 128 + j)). rewrite lookup_drop. split; [lia|]. split; [lia|]. split; [lia|done].
      - exists (length h - 128 + (j - length h mod 128)). rewrite lookup_drop. split; [lia|]. split; [lia|]. split; [lia|done]. }
    destruct HE as (i & H1 & H2 & H3 & ->). split.
    - intros (i' & Hi' & Hm & Hn). pose proof (lookup_lt_Some _ _ _ Hi').
      assert (i' = i); [|by subst]. destruct (decide (i' < i)); [by specialize (Hn i ltac:(lia))|]. lia.
    - intros Hi. exists i. split; [done|]. split; [done|]. intros i' Hi'. lia.
  Qed.
  Lemma contents_last ops b : FInv ops b -> let h := adds_since_reset ops in
    (length h <= 128 -> fifo_contents b = h) /\ fifo_contents b ≡ₚ drop (length h - 128) h.
  Proof.
    intros HF h. pose proof (fifo_contents_length _ _ HF) as HL. fold h in HL.
    assert (HS : length h <= 128 -> fifo_contents b = h).
    { intros Hh. apply list_eq. intros j. apply option_eq. intros v. rewrite (fifo_contents_lookup _ _ _ _ HF). by apply newest_short. }
    split; [done|]. destruct (decide (length h <= 128)) as [Hh|Hh].
    - rewrite HS by done. by replace (length h - 128) with 0 by lia.
    - set (D := drop (length h - 128) h). assert (HD : length D = 128) by (unfold D; rewrite drop_length; lia).
      replace (fifo_contents b) with (drop (128 - length h mod 128) D ++ take (128 - length h mod 128) D).
      { rewrite (comm (++)). by rewrite take_drop. }
      pose proof (Nat.mod_upper_bound (length h) 128 ltac:(lia)) as Hr. set (r := length h mod 128) in *.
      apply list_eq. intros j. destruct (decide (j < 128)) as [Hj|Hj].
      2:{ rewrite (lookup_ge_None_2 (fifo_contents b)) by (rewrite HL; lia). apply lookup_ge_None_2. rewrite app_length, drop_length, take_length, HD. clearbody r. lia. }
      assert (HX : fifo_contents b !! j = if decide (j < r) then D !! (128 - r + j) else D !! (j - r)).
      { apply option_eq. intros v. rewrite (fifo_contents_lookup _ _ _ _ HF). apply newest_long; [fold h; lia|done]. }
      rewrite HX. destruct (decide (j < r)).
      + rewrite lookup_app_l by (rewrite drop_length; lia). by rewrite lookup_drop.
      + rewrite lookup_app_r by (rewrite drop_length; lia). rewrite drop_length, HD, lookup_take by lia. f_equal. lia.
  Qed.
End ring.

(** * Entering all nodes *)
Lemma HashesToIndex_ext hf t t' hs : lsh_k t' = lsh_k t -> lsh_l t' = lsh_l t -> lsh_rangePow t' = lsh_rangePow t -> lsh_rand1 t' = lsh_rand1 t ->
  lsh_HashesToIndex hf t' hs = lsh_HashesToIndex hf t hs.
Proof. destruct t, t'. cbn. by intros -> -> -> ->. Qed.

Lemma insert_all_inv E h l rp H t ws t' :
  LInv l rp H t -> (forall a b, adds_since_reset (H a b) = []) -> insert_all E h t ws = Ok t' ->
  exists H' addrs, LInv l rp H' t' /\
    lsh_k t' = lsh_k t /\ lsh_rangePow t' = lsh_rangePow t /\ lsh_rand1 t' = lsh_rand1 t /\
    Forall2 (fun w ix => (exists hs, weight_hashes E h w [] = Ok hs /\ lsh_HashesToIndex (e_Hash E) t hs = Ok ix) /\ valid_indices l rp ix) ws addrs /\
    forall a b, adds_since_reset (H' a b) =
      filter (fun k' => (addrs !! Z.to_nat k') ≫= (fun ix' => ix' !! Z.to_nat a) = Some b) (seqZ 0 (Z.of_nat (length ws))).
Proof.
  intros HI H0. revert t'. induction ws as [|w ws IH] using rev_ind; intros t' Hi.
  - injection Hi as <-. exists H, []. split; [done|]. split; [done|]. split; [done|]. split; [done|]. split; [constructor|]. intros a b. by rewrite H0.
  - unfold insert_all in Hi. rewrite indexed_snoc, foldM_app in Hi.
    destruct (foldM (fun t kw => ref_insert E h t kw.2 kw.1) t (indexed ws)) as [t1|] eqn:E1; [|discriminate Hi]. cbn [foldM fst snd] in Hi. destruct (ref_insert E h t1 w (Z.of_nat (length ws))) as [t2|] eqn:E2; [|discriminate Hi]. apply Ok_inj in Hi as <-.
    destruct (IH _ E1) as (H1 & addrs & HI1 & Hk & Hr & Hd & HF & HA). unfold ref_insert in E2.
    binv E2 as hs E3. binv E2 as ix E4. binv E2 as [rs t3] E5. injection E2 as <-.
    rewrite (HashesToIndex_ext _ t) in E4; [|done|by rewrite (li_l _ _ _ _ HI1), (li_l _ _ _ _ HI)|done..].
    assert (HV : valid_indices l rp ix) by (eapply (lsh_Add_panics _ _ _ _ _ (Z.of_nat (length ws)) HI1); eauto).
    destruct (lsh_Add_spec _ _ _ _ _ (Z.of_nat (length ws)) HI1 HV) as (rs' & t' & HA' & _ & HI' & _ & Hk' & Hr' & Hd').
    rewrite E5 in HA'. injection HA' as <- <-.
    eexists _, (addrs ++ [ix]). split; [exact HI'|]. split; [congruence|]. split; [congruence|]. split; [congruence|]. split.
    { apply Forall2_app; [done|]. constructor; [|constructor]. eauto. }
    intros a b. rewrite app_length. cbn [length]. pose proof (Forall2_length _ _ _ HF) as Hlen.
    replace (Z.of_nat (length ws + 1)) with (Z.of_nat (length ws) + 1) by lia. rewrite seqZ_app by lia. rewrite filter_app. cbn [seqZ].
    assert (HB : filter (fun k' => ((addrs ++ [ix]) !! Z.to_nat k') ≫= (fun ix' => ix' !! Z.to_nat a) = Some b) (seqZ 0 (Z.of_nat (length ws))) =
                 filter (fun k' => (addrs !! Z.to_nat k') ≫= (fun ix' => ix' !! Z.to_nat a) = Some b) (seqZ 0 (Z.of_nat (length ws)))).
    { clear -Hlen.
      assert (HX : forall k', k' ∈ seqZ 0 (Z.of_nat (length ws)) -> (addrs ++ [ix]) !! Z.to_nat k' = addrs !! Z.to_nat k').
      { intros k' Hk%elem_of_seqZ. apply lookup_app_l. lia. }
      revert HX. generalize (seqZ 0 (Z.of_nat (length ws))). intros xs. induction xs as [|x xs IH]; intros HX; [done|].
      rewrite !filter_cons. rewrite HX by constructor. rewrite IH by (intros; apply HX; by constructor). done. }
    rewrite HB, <- HA.
    assert (HC : filter (fun k' => ((addrs ++ [ix]) !! Z.to_nat k') ≫= (fun ix' => ix' !! Z.to_nat a) = Some b) (seqZ (0 + Z.of_nat (length ws)) 1) =
                 if decide (ix !! Z.to_nat a = Some b) then [Z.of_nat (length ws)] else []).
    { change (seqZ (0 + Z.of_nat (length ws)) 1) with [0 + (0 + Z.of_nat (length ws))]. rewrite filter_cons. rewrite !Z.add_0_l, Nat2Z.id, Hlen, list_lookup_middle by done. cbn [mbind option_bind].
      by destruct (decide (ix !! Z.to_nat a = Some b)). }
    rewrite HC. destruct (decide (ix !! Z.to_nat a = Some b)); [|by rewrite !app_nil_r].
    by rewrite adds_snoc.
Qed.

Lemma entered_findable E lv rp H t : LInv (lv_l lv) rp H t -> (forall a b, adds_since_reset (H a b) = []) ->
  insert_all E (lv_hash lv) t (map v_w (lv_nodes lv)) = Ok (lv_tables lv) -> findable E lv.
Proof.
  intros HI H0 Hi. destruct (insert_all_inv _ _ _ _ _ _ _ _ HI H0 Hi) as (H' & addrs & HI' & Hk & Hr & Hd & HF & HA).
  rewrite map_length in HA.
  assert (HF2 : Forall2 (fun v ix => address E lv (v_w v) ix /\ valid_indices (lv_l lv) rp ix) (lv_nodes lv) addrs).
  { apply Forall2_fmap_l in HF. eapply Forall2_impl; [exact HF|]. cbn. intros v ix [(hs & H1 & H2) H3]. split; [|done]. exists hs. split; [by apply LayerModes.weight_codes_iff|].
    rewrite (HashesToIndex_ext _ t); [done|done| |done..]. by rewrite (li_l _ _ _ _ HI'), (li_l _ _ _ _ HI). }
  exists addrs. split; [eapply Forall2_impl; [exact HF2|]; cbn; tauto|]. split.
  { intros k ix Hix. destruct (Forall2_lookup_r _ _ _ _ _ HF2 Hix) as (v & Hv & _ & HV).
    destruct (lsh_RetrieveRaw_spec _ _ _ _ _ HI' HV) as (rs & Hrs & _). eauto. }
  intros ix rs Hrs. assert (HV : valid_indices (lv_l lv) rp ix) by (eapply lsh_RetrieveRaw_panics; eauto).
  destruct (lsh_RetrieveRaw_spec _ _ _ _ _ HI' HV) as (rs' & Hrs' & _ & HC). rewrite Hrs in Hrs'. injection Hrs' as <-.
  intros a Ha. destruct (HV a Ha) as (x & Hx & _). destruct (HC _ _ Ha Hx) as (b & Hb & HFb). exists x, (fifo_contents b).
  split; [done|]. split; [done|]. cbn zeta. destruct (contents_last _ _ HFb) as [C1 C2]. rewrite HA in C1, C2. split; [|done].
  intros Hs. split; [by apply C1|]. intros k Hix. destruct (Forall2_lookup_r _ _ _ _ _ HF2 Hix) as (v & Hv & _).
  rewrite C1 by done. apply elem_of_list_filter. rewrite Nat2Z.id, Hix. cbn. split; [done|].
  apply elem_of_seqZ. apply lookup_lt_Some in Hv. lia.
Qed.
Lemma rehashed_findable E k l rp n t0 lv : 0 <= rp <= 62 -> used_tables k l rp n t0 -> lv_l lv = l ->
  insert_all E (lv_hash lv) (lsh_Clear t0) (map v_w (lv_nodes lv)) = Ok (lv_tables lv) -> findable E lv.
Proof.
  intros Hrp (g & t1 & g' & ops & HN & HR & _) Hl Hi. destruct (lsh_reachable _ _ _ _ _ _ _ _ Hrp HN HR) as (HI & _).
  rewrite <- Hl in HI at 1. eapply entered_findable; [by apply lsh_Clear_spec|intros a b; cbn beta; by rewrite adds_snoc|done].
Qed.
