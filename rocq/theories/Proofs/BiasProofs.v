(** How often each hash comes up, and how often two vectors collide. *)
From Coq Require Import Factorial.
From stdpp Require Import sorting.
From Verif.Spec Require Import BiasSpec HashSpec.
From Verif.Proofs Require Import FloatOrder ShuffleProofs WtaProofs DwtaProofs BiasCount BiasOrders BiasSets BiasTables.
From Coq Require Import Lia.
Local Open Scope Z_scope.

(** * The hashes of a bin inside one order *)
Lemma drop_concat {A} (L : list (list A)) (N p a : nat) l : Forall (fun l => length l = N) L -> L !! p = Some l -> (a <= N)%nat ->
  drop (p * N + a) (concat L) = drop a l ++ concat (drop (S p) L).
Proof.
  revert p. induction L as [|x L IH]; intros p HF Hp Ha; [done|]. apply Forall_cons in HF as [HX HF]. cbn [concat]. destruct p as [|p].
  - injection Hp as ->. cbn [Nat.mul Nat.add drop]. rewrite skipn_app. replace (a - length l)%nat with 0%nat by lia. by rewrite drop_0.
  - rewrite skipn_app. rewrite (drop_ge x) by (rewrite HX; cbn [Nat.mul]; lia). rewrite app_nil_l. replace (S p * N + a - length x)%nat with (p * N + a)%nat by (rewrite HX; cbn [Nat.mul]; lia).
    cbn [drop]. by apply IH.
Qed.
Lemma above_fltb u i x : all_above u -> u !! i = Some x -> fltb (f_of_Z (- 2 ^ 63)) x = true.
Proof. intros H Hi. exact (Forall_lookup_1 _ _ _ _ H Hi). Qed.
Section Bin.
  Context (numHashes n : Z) (g : rng) (u : list float64) (b p : Z).
  Context (H1 : 0 <= numHashes) (H2 : 8 * numHashes < 2^53) (H3 : 0 < n <= 2^53) (HL : Z.of_nat (length u) = n) (HD : all_different u) (HA : all_above u)
    (Hb : 0 <= b < numHashes) (HI : inside n b p).
  Notation K := (Z.to_nat (wta_ceil numHashes n)).
  Definition start : nat := Z.to_nat (8 * b - p * n).
  Definition bin_of (g : rng) : list Z := window start 8 (nth_order (S (Z.to_nat p)) (seqZ 0 n) g).1.
  Lemma p_lt : (Z.to_nat p < K)%nat.
  Proof using H1 H2 H3 Hb HI.
    clear HL HD HA. destruct HI as (P0 & P1 & P2). unfold wta_ceil. assert (p + 1 <= (8 * numHashes + n - 1) / n); [|lia]. apply Z.div_le_lower_bound; [lia|]. nia.
  Qed.
  Lemma start_ok : Z.of_nat (start + 8) <= n.
  Proof using HI. clear HL HD HA H1 H2 H3 Hb. destruct HI as (P0 & P1 & P2). unfold start. lia. Qed.
  Lemma order_at : orders K (seqZ 0 n) g !! Z.to_nat p = Some (nth_order (S (Z.to_nat p)) (seqZ 0 n) g).1.
  Proof using H1 H2 H3 Hb HI. unfold orders. rewrite list_lookup_fmap, lookup_seq_lt by apply p_lt. reflexivity. Qed.
  Lemma orders_lengths : Forall (fun l => length l = Z.to_nat n) (orders K (seqZ 0 n) g).
  Proof. apply Forall_map, Forall_forall. intros q _. by rewrite nth_order_length, seqZ_length. Qed.
  Lemma bin_perm : (nth_order (S (Z.to_nat p)) (seqZ 0 n) g).1 ≡ₚ seqZ 0 n.
  Proof. apply nth_order_perm. Qed.
  Lemma bin_length : length (bin_of g) = 8%nat.
  Proof using H1 H2 H3 Hb HI. apply (window_length start 8 n); [apply bin_perm|apply start_ok]. Qed.
  Lemma bin_range : in_range u (bin_of g).
  Proof using HL. apply (window_range u n); [done|apply bin_perm]. Qed.
  Lemma bin_NoDup : NoDup (bin_of g).
  Proof. apply window_NoDup. rewrite bin_perm. apply NoDup_seqZ. Qed.
  Lemma wta_hash_winner : wta_hash numHashes n g u b = winner u (bin_of g).
  Proof using H1 H2 H3 HL HD HA Hb HI.
    unfold wta_hash. destruct (wta_New_orders numHashes n g H1 H2 H3) as (t & g' & HN & HNH & HIX). rewrite HN. cbn [ok mbind option_bind fst].
    destruct (wta_tables numHashes n g H1 H2 H3) as (t' & g2 & perms & HN' & _ & _ & _ & _ & HG). rewrite HN in HN'. injection HN' as <- <-.
    destruct (HG u ltac:(lia)) as (hs & HH & HLh). rewrite HH. cbn [ok mbind option_bind].
    destruct (lookup_lt_is_Some_2 hs (Z.to_nat b)) as [h Hh]; [lia|]. rewrite Hh.
    destruct (wta_dense_first_max t u hs (Z.to_nat b) h HH Hh) as (cands & vals & HC & LC & HV & HR).
    assert (EC : cands = bin_of g).
    { rewrite HC, HIX. unfold bin_of, window. destruct HI as (P0 & P1 & P2).
      replace (8 * Z.to_nat b)%nat with (Z.to_nat p * Z.to_nat n + start)%nat by (unfold start; nia).
      rewrite (drop_concat _ (Z.to_nat n) _ _ _ orders_lengths order_at) by (unfold start; lia). rewrite take_app_le; [done|].
      rewrite drop_length, nth_order_length, seqZ_length. pose proof start_ok. lia. }
    rewrite EC in *. clear HC EC. symmetry. apply winner_best. destruct HR as [(q & (v & Hv & _ & HM & _) & Hq)|[HNA _]].
    - destruct (Forall2_lookup_lr _ _ _ _ _ _ HV Hq Hv) as [Q0 Q1].
      split; [by eapply elem_of_list_lookup_2|]. intros f' Hf' NE. apply elem_of_list_lookup in Hf' as [q' Hq'].
      destruct (Forall2_lookup_l _ _ _ _ _ HV Hq') as (v' & Hv' & R0 & R1). specialize (HM q' v' Hv').
      unfold value_of. rewrite Q1, R1. cbn. destruct (HD (Z.to_nat f') (Z.to_nat h) v' v) as [L|L]; [lia|done|done|done|congruence].
    - exfalso. destruct (lookup_lt_is_Some_2 (bin_of g) 0) as [f Hf]; [rewrite LC; lia|].
      destruct (Forall2_lookup_l _ _ _ _ _ HV Hf) as (v & Hv & R0 & R1). specialize (HNA 0%nat v Hv). pose proof (above_fltb _ _ _ HA R1) as AB. change (f_of_Z (- 2 ^ 63)) with fMinInt64 in AB. congruence.
  Qed.
  Lemma dwta_hash_slot log2 topK : 0 <= int_of_f (log2 (f_of_Z numHashes)) <= 31 ->
    dwta_hash log2 numHashes n g u topK b = Some (Z.of_nat (slot u (bin_of g))).
  Proof using H1 H2 H3 HL HD HA Hb HI.
    intros HLG. unfold dwta_hash. destruct (dwta_New_orders log2 numHashes n g H1 H2 H3) as (dw & g' & HN & (T1 & T2 & TF & HT) & HPm). rewrite HN. cbn [ok mbind option_bind fst].
    destruct (dwta_easy_winner log2 numHashes n g dw g' u topK H1 H2 H3 HLG HN HL) as (hs & HH & HB). rewrite HH. cbn [ok mbind option_bind].
    destruct (HB b Hb) as [HE1 HE2]. rewrite HPm in *. set (es := bin_entries _ _ _ _ _ _) in *.
    assert (HES : forall q v, (q, v) ∈ es -> 0 <= q < 8 /\ exists f, bin_of g !! Z.to_nat q = Some f /\ u !! Z.to_nat f = Some v).
    { intros q v Hin. assert (Q8 : 0 <= q < 8). { assert (HQ : q ∈ es.*1) by (by apply (elem_of_list_fmap_1 fst _ (q, v))). rewrite HE1 in HQ. apply elem_of_seqZ in HQ. lia. }
      split; [done|]. unfold es, bin_entries in Hin. apply elem_of_list_In, in_flat_map in Hin as (p' & Hp & Hin).
      apply elem_of_list_In, elem_of_seqZ in Hp. apply elem_of_list_In, elem_of_list_omap in Hin as (i & Hi & HE). apply elem_of_seq in Hi.
      destruct (dw_indices dw !! _) as [b'|] eqn:E1; [|done]. destruct (dw_pos dw !! _) as [q'|] eqn:E2; [|done]. destruct (u !! i) as [v'|] eqn:E3; [|done].
      case_decide; [|done]. injection HE as -> ->. subst b'.
      destruct (lookup_lt_is_Some_2 (orders K (seqZ 0 n) g) (Z.to_nat p')) as [l Hl]; [unfold orders; rewrite map_length, seq_length; lia|].
      pose proof (Forall_lookup_1 _ _ _ _ TF Hl) as PL. assert (Hin : Z.of_nat i ∈ l) by (rewrite PL; apply elem_of_seqZ; lia). apply elem_of_list_lookup in Hin as [j Hj].
      destruct (HT _ _ _ _ Hl Hj) as [F1 F2]. rewrite Z2Nat.id in F1, F2 by lia. rewrite E1 in F1. rewrite E2 in F2. injection F1 as F1. injection F2 as F2.
      pose proof (Z.div_mod (p' * n + Z.of_nat j) 8 ltac:(lia)) as DM. rewrite <- F1, <- F2 in DM.
      pose proof (lookup_lt_Some _ _ _ Hj) as LJ. rewrite (Permutation_length PL), seqZ_length in LJ. destruct HI as (P0 & P1 & P2).
      assert (p' = p) as -> by nia. rewrite order_at in Hl. injection Hl as <-.
      exists (Z.of_nat i). split; [|by rewrite Nat2Z.id]. unfold bin_of. rewrite window_lookup by lia. rewrite <- Hj. f_equal. unfold start. lia. }
    destruct (slot_best u (bin_of g) HD bin_range bin_NoDup) as (f & HBf & Hf); [intros E0; pose proof bin_length as LB; rewrite E0 in LB; discriminate|].
    set (q := slot u (bin_of g)) in *. pose proof (lookup_lt_Some _ _ _ Hf) as LQ. rewrite bin_length in LQ.
    assert (HQ : Z.of_nat q ∈ es.*1) by (rewrite HE1; apply elem_of_seqZ; lia). apply elem_of_list_lookup in HQ as [i Hi].
    rewrite list_lookup_fmap in Hi. destruct (es !! i) as [[q0 v]|] eqn:Ei; [|done]. cbn in Hi. injection Hi as ->.
    destruct (HES _ _ (elem_of_list_lookup_2 _ _ _ Ei)) as (_ & f0 & Hf0 & Hv). rewrite Nat2Z.id, Hf in Hf0. injection Hf0 as <-.
    apply (HE2 i (Z.of_nat q) v); [|done]. exists v. split; [by rewrite list_lookup_fmap, Ei|]. split; [by eapply above_fltb|].
    assert (OTHER : forall i' v', es.*2 !! i' = Some v' -> i' <> i -> fltb v' v = true).
    { intros i' v' Hi' NE. rewrite list_lookup_fmap in Hi'. destruct (es !! i') as [[q' w]|] eqn:Ei'; [|done]. cbn in Hi'. injection Hi' as ->.
      destruct (HES _ _ (elem_of_list_lookup_2 _ _ _ Ei')) as (Q' & f' & Hf' & Hv').
      destruct HBf as [_ HM]. assert (NF : f' <> f).
      { intros ->. assert (Z.to_nat q' = q) by (eapply NoDup_lookup; [apply bin_NoDup|eassumption..]). assert (q' = Z.of_nat q) as -> by lia.
        apply NE. assert (ND1 : NoDup es.*1) by (rewrite HE1; apply NoDup_seqZ). eapply (NoDup_lookup es.*1); [exact ND1|rewrite list_lookup_fmap, Ei'; reflexivity|rewrite list_lookup_fmap, Ei; reflexivity]. }
      specialize (HM f' (elem_of_list_lookup_2 _ _ _ Hf') NF). unfold value_of in HM. by rewrite Hv, Hv' in HM. }
    split.
    - intros i' v' Hi'. destruct (decide (i' = i)) as [->|NE].
      + rewrite list_lookup_fmap, Ei in Hi'. cbn in Hi'. injection Hi' as <-. apply fltb_irrefl.
      + apply fltb_asym. by eapply OTHER.
    - intros i' v' LT Hi' _. eapply OTHER; [exact Hi'|lia].
  Qed.
End Bin.

(** * Counting *)
Lemma filter_count {A} (P : A -> Prop) `{forall x, Decision (P x)} xs : length (filter P xs) = count (fun x => bool_decide (P x)) xs.
Proof.
  unfold count. induction xs as [|x xs IH]; [reflexivity|]. rewrite !filter_cons. destruct (decide (P x)) as [Q|Q].
  - rewrite decide_True by (by apply bool_decide_eq_true). cbn. by rewrite IH.
  - rewrite decide_False by (by rewrite bool_decide_eq_true). exact IH.
Qed.
Section Counts.
  Context (numHashes n : Z) (g : rng) (b p : Z).
  Context (H1 : 0 <= numHashes) (H2 : 8 * numHashes < 2^53) (H3 : 0 < n <= 2^53) (Hb : 0 <= b < numHashes) (HI : inside n b p).
  Notation src ds := (with_choices g (Z.to_nat (p * (n - 1))) ds).
  Lemma bin_order ds : bin_of n b p (src ds) = window (start n b p) 8 (order_of n g (Z.to_nat p) ds).
  Proof using H3 HI. unfold bin_of, order_of. destruct HI as (P0 & _). replace (Z.to_nat (p * (n - 1))) with (Z.to_nat p * Nat.pred (Z.to_nat n))%nat by nia. reflexivity. Qed.
  Notation os := (map (order_of n g (Z.to_nat p)) (all_choices (Z.to_nat n))).
  Lemma os_enum : enum n os.
  Proof using H3. apply orders_enum. lia. Qed.
  Lemma os_length : length os = fact (Z.to_nat n).
  Proof. rewrite map_length. apply all_choices_length. Qed.
  (** A property of the set of features in the bin. *)
  Lemma count_sets (F : list Z -> bool) : (forall o, o ≡ₚ seqZ 0 n -> F (window (start n b p) 8 o) = F (set_of (window (start n b p) 8 o))) ->
    (count (fun ds => F (bin_of n b p (src ds))) (all_choices (Z.to_nat n)) * length (combos 8 (seqZ 0 n)) = fact (Z.to_nat n) * count F (combos 8 (seqZ 0 n)))%nat.
  Proof using H1 H2 H3 Hb HI.
    intros HF. rewrite <- os_length. rewrite <- (sets_fair n os (start n b p) 8 os_enum (start_ok n b p HI) F). f_equal.
    rewrite count_map. apply count_ext. intros ds _. rewrite bin_order. apply HF. unfold order_of. apply nth_order_perm.
  Qed.
  Lemma dwta_slots log2 u topK q : 0 <= int_of_f (log2 (f_of_Z numHashes)) <= 31 -> Z.of_nat (length u) = n -> all_different u -> all_above u -> 0 <= q < 8 ->
    (8 * length (filter (fun ds => dwta_hash log2 numHashes n (src ds) u topK b = Some q) (all_choices (Z.to_nat n))) = fact (Z.to_nat n))%nat.
  Proof using H1 H2 H3 Hb HI.
    intros HG HL HD HA Hq. rewrite filter_count, <- os_length.
    rewrite <- (slots_fair n os (start n b p) 8 u os_enum (start_ok n b p HI) ltac:(lia) HD HL (Z.to_nat q) ltac:(lia)). f_equal.
    rewrite count_map. apply count_ext. intros ds _. rewrite (dwta_hash_slot numHashes n (src ds) u b p H1 H2 H3 HL HD HA Hb HI log2 topK HG). rewrite bin_order.
    apply bool_decide_ext. split; [intros E; injection E as E; lia|intros E; f_equal; lia].
  Qed.
  Lemma wta_winners u f : Z.of_nat (length u) = n -> all_different u -> all_above u ->
    (length (filter (fun ds => wta_hash numHashes n (src ds) u b = Some f) (all_choices (Z.to_nat n))) * length (combos 8 (seqZ 0 n)) =
     fact (Z.to_nat n) * length (filter (fun s => winner u s = Some f) (combos 8 (seqZ 0 n))))%nat.
  Proof using H1 H2 H3 Hb HI.
    intros HL HD HA. rewrite !filter_count. rewrite <- (count_sets (fun s => bool_decide (winner u s = Some f))).
    - f_equal. apply count_ext. intros ds _. by rewrite (wta_hash_winner numHashes n (src ds) u b p).
    - intros o PO. rewrite (winner_perm u (window (start n b p) 8 o) (set_of (window (start n b p) 8 o))); [done|done|by apply (window_range u n)|by rewrite set_perm].
  Qed.
  Lemma wta_collide u v : Z.of_nat (length u) = n -> Z.of_nat (length v) = n -> all_different u -> all_different v -> all_above u -> all_above v ->
    (length (filter (fun ds => wta_hash numHashes n (src ds) u b = wta_hash numHashes n (src ds) v b) (all_choices (Z.to_nat n))) * length (combos 8 (seqZ 0 n)) =
     fact (Z.to_nat n) * length (filter (fun s => winner u s = winner v s) (combos 8 (seqZ 0 n))))%nat.
  Proof using H1 H2 H3 Hb HI.
    intros HL HL' HD HD' HA HA'. rewrite !filter_count. rewrite <- (count_sets (fun s => bool_decide (winner u s = winner v s))).
    - f_equal. apply count_ext. intros ds _. by rewrite (wta_hash_winner numHashes n (src ds) u b p), (wta_hash_winner numHashes n (src ds) v b p).
    - intros o PO. assert (RU := window_range u n (start n b p) 8 o HL PO). assert (RV := window_range v n (start n b p) 8 o HL' PO).
      rewrite (winner_perm u _ (set_of (window (start n b p) 8 o)) HD RU) by (by rewrite set_perm). by rewrite (winner_perm v _ (set_of (window (start n b p) 8 o)) HD' RV) by (by rewrite set_perm).
  Qed.
  Lemma dwta_collide log2 u v topK : 0 <= int_of_f (log2 (f_of_Z numHashes)) <= 31 ->
    Z.of_nat (length u) = n -> Z.of_nat (length v) = n -> all_different u -> all_different v -> all_above u -> all_above v ->
    (length (filter (fun ds => dwta_hash log2 numHashes n (src ds) u topK b = dwta_hash log2 numHashes n (src ds) v topK b) (all_choices (Z.to_nat n))) * length (combos 8 (seqZ 0 n)) =
     fact (Z.to_nat n) * length (filter (fun s => winner u s = winner v s) (combos 8 (seqZ 0 n))))%nat.
  Proof using H1 H2 H3 Hb HI.
    intros HG HL HL' HD HD' HA HA'. rewrite <- (wta_collide u v HL HL' HD HD' HA HA'). f_equal. rewrite !filter_count. apply count_ext. intros ds _.
    rewrite (dwta_hash_slot numHashes n (src ds) u b p H1 H2 H3 HL HD HA Hb HI log2 topK HG), (dwta_hash_slot numHashes n (src ds) v b p H1 H2 H3 HL' HD' HA' Hb HI log2 topK HG).
    rewrite (wta_hash_winner numHashes n (src ds) u b p), (wta_hash_winner numHashes n (src ds) v b p) by done.
    set (w := bin_of n b p (src ds)). assert (NW : NoDup w) by apply bin_NoDup. assert (LW : length w = 8%nat) by (by apply (bin_length numHashes)).
    assert (NE : w <> []) by (intros E; rewrite E in LW; discriminate).
    assert (RU : in_range u w) by (by apply bin_range). assert (RV : in_range v w) by (by apply bin_range).
    destruct (slot_best u w HD RU NW NE) as (f & HBf & Hf). destruct (slot_best v w HD' RV NW NE) as (f' & HBf' & Hf').
    rewrite (winner_best _ _ _ HBf), (winner_best _ _ _ HBf'). apply bool_decide_ext. split.
    - intros E. assert (slot u w = slot v w) as E2 by (injection E; lia). rewrite E2 in Hf. congruence.
    - intros [= <-]. f_equal. f_equal. eapply NoDup_lookup; eassumption.
  Qed.
End Counts.

(** Every bin lies inside one order when the number of features is a multiple of eight. *)
Lemma every_bin_inside m b : 0 < m -> 0 <= b -> inside (8 * m) b (b / m).
Proof.
  intros Hm Hb. unfold inside. pose proof (Z.div_mod b m ltac:(lia)) as DM. pose proof (Z.mod_pos_bound b m Hm) as MB. pose proof (Z.div_pos b m Hb Hm).
  set (d := b / m) in *. set (r := b mod m) in *. split; [done|]. split; nia.
Qed.
