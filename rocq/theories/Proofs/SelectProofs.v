(** The selection of active nodes (layer/layer.go:285-513), mode by mode. *)
From Verif.Spec Require Export LayerSpec.
From Verif.Proofs Require Export BaseProofs.
From stdpp Require Import gmap sorting fin_maps fin_sets.
From Coq Require Import Lia ZifyBool ZifyNat.
Local Open Scope Z_scope.

Definition inr (N j : Z) : Prop := 0 <= j < N.

(** * Mode 4 *)
Record m4 (N d : Z) (X : gset Z) (counts : list Z) (sz : Z) : Prop := mkM4 {
  m4_len : Z.of_nat (length counts) = N;
  m4_mem : forall (j : nat) v, counts !! j = Some v -> -1 <= v /\ (0 <= v <-> Z.of_nat j ∈ X);
  m4_rng : forall x, x ∈ X -> inr N x;
  m4_size : sz = d + Z.of_nat (size X)
}.

Lemma m4_get N d X counts sz j : m4 N d X counts sz -> inr N j ->
  exists v, sget counts j = Ok v /\ counts !! Z.to_nat j = Some v /\ -1 <= v /\ (0 <= v <-> j ∈ X).
Proof.
  intros [] Hj. destruct (sget_total counts j) as (v & Hv & Hl); [unfold inr in Hj; lia|].
  exists v. split; [done|]. split; [done|]. pose proof (m4_mem0 _ _ Hl) as [? Hx].
  split; [done|]. rewrite Hx. unfold inr in Hj. by rewrite Z2Nat.id by lia.
Qed.

Lemma m4_put N d X counts sz j w : m4 N d X counts sz -> inr N j -> 0 <= w -> j ∉ X ->
  m4 N d (X ∪ {[j]}) (<[Z.to_nat j := w]> counts) (sz + 1).
Proof.
  intros [] Hj Hw HX. unfold inr in *. constructor.
  - by rewrite insert_length.
  - intros k v. rewrite list_lookup_insert_Some. intros [(<- & -> & ?)|[Hne Hv]].
    + split; [lia|]. split; [|lia]. intros _. rewrite Z2Nat.id by lia. set_solver.
    + destruct (m4_mem0 _ _ Hv) as [? ->]. split; [done|]. set_unfold. split; [tauto|]. intros [?|?]; [done|lia].
  - intros x. set_unfold. intros [?| ->]; [by apply m4_rng0|done].
  - rewrite size_union by set_solver. rewrite size_singleton. lia.
Qed.

Lemma m4_over N d X counts sz j w : m4 N d X counts sz -> inr N j -> 0 <= w -> j ∈ X ->
  m4 N d X (<[Z.to_nat j := w]> counts) sz.
Proof.
  intros [] Hj Hw HX. unfold inr in *. constructor; [by rewrite insert_length| |done|done].
  intros k v. rewrite list_lookup_insert_Some. intros [(<- & -> & ?)|[Hne Hv]]; [|by apply m4_mem0].
  split; [lia|]. split; [|lia]. intros _. by rewrite Z2Nat.id by lia.
Qed.

Lemma m4_init N : 0 <= N -> m4 N 0 ∅ (replicate (Z.to_nat N) (-1)) 0.
Proof.
  intros HN. constructor.
  - rewrite replicate_length. lia.
  - intros j v [-> ?]%lookup_replicate. set_solver by lia.
  - set_solver.
  - by rewrite size_empty.
Qed.

(** the label loop, in terms of the set of positions only *)
Lemma m4_labels N L label counts : 0 <= N -> 0 <= L -> Forall (inr N) label ->
  (forall X, m4 N 0 X counts (Z.of_nat (size X)) ->
  exists counts', foldM (fun counts labelValue => sset counts labelValue L) counts label = Ok counts' /\
    m4 N 0 (X ∪ list_to_set label) counts' (Z.of_nat (size (X ∪ list_to_set label)))).
Proof.
  intros HN HL. revert counts. induction label as [|j label IH]; intros counts Hl X HI.
  - exists counts. split; [done|]. cbn [list_to_set]. replace (X ∪ ∅) with X by set_solver. done.
  - apply Forall_cons in Hl as [Hj Hl]. cbn [foldM].
    pose proof (m4_len _ _ _ _ _ HI) as Hlen. unfold inr in Hj.
    rewrite sset_total by lia.
    destruct (IH (<[Z.to_nat j := L]> counts) Hl (X ∪ {[j]})) as (c' & Hc' & HI').
    { destruct (decide (j ∈ X)).
      - replace (X ∪ {[j]}) with X by set_solver. by apply m4_over.
      - rewrite (size_union X {[j]}) by set_solver. rewrite size_singleton, Nat2Z.inj_add.
        by apply m4_put. }
    exists c'. split; [done|]. cbn [list_to_set].
    replace (X ∪ ({[j]} ∪ list_to_set label)) with (X ∪ {[j]} ∪ list_to_set label) by set_solver. done.
Qed.

Lemma m4_shift N d X counts sz d' : m4 N d X counts sz -> m4 N d' X counts (d' + Z.of_nat (size X)).
Proof. intros []. by constructor. Qed.

Lemma m4_count N d ids : forall X counts sz, m4 N d X counts sz -> Forall (inr N) ids ->
  exists counts' sz', foldM mode4_count (counts, sz) ids = Ok (counts', sz') /\
    m4 N d (X ∪ list_to_set ids) counts' sz'.
Proof.
  induction ids as [|j ids IH]; intros X counts sz HI Hl.
  - exists counts, sz. split; [done|]. cbn [list_to_set]. replace (X ∪ ∅) with X by set_solver. done.
  - apply Forall_cons in Hl as [Hj Hl]. cbn [foldM]. unfold mode4_count at 1.
    destruct (m4_get _ _ _ _ _ _ HI Hj) as (v & -> & Hv & Hge & Hin). cbn [mbind res_bind].
    pose proof (m4_len _ _ _ _ _ HI) as Hlen. unfold inr in Hj.
    cbn [list_to_set]. replace (X ∪ ({[j]} ∪ list_to_set ids)) with (X ∪ {[j]} ∪ list_to_set ids) by set_solver.
    destruct (Z.eqb_spec v (-1)) as [->|Hne]; rewrite sset_total by lia; cbn [mbind res_bind].
    + apply IH; [|done]. apply m4_put; [done|done|lia|]. intros ?%Hin. lia.
    + apply IH; [|done]. assert (j ∈ X) by (apply Hin; lia).
      replace (X ∪ {[j]}) with X by set_solver. apply m4_over; [done|done|lia|done].
Qed.

Lemma m4_counts N d actives : forall X counts sz, m4 N d X counts sz -> Forall (inr N) (concat actives) ->
  exists counts' sz', foldM (foldM mode4_count) (counts, sz) actives = Ok (counts', sz') /\
    m4 N d (X ∪ list_to_set (concat actives)) counts' sz'.
Proof.
  induction actives as [|ids actives IH]; intros X counts sz HI Hl.
  - exists counts, sz. split; [done|]. cbn [concat list_to_set]. replace (X ∪ ∅) with X by set_solver. done.
  - cbn [concat] in *. apply Forall_app in Hl as [Hi Hl]. cbn [foldM].
    destruct (m4_count _ _ ids _ _ _ HI Hi) as (c' & s' & -> & HI').
    destruct (IH _ _ _ HI' Hl) as (c2 & s2 & -> & HI2). exists c2, s2. split; [done|].
    rewrite list_to_set_app_L, union_assoc_L. done.
Qed.

(** the fallback loops *)
Lemma m4_extra N d X counts sz j : m4 N d X counts sz -> inr N j ->
  exists X' counts' sz', mode4_extra (counts, sz) j = Ok (counts', sz') /\ m4 N d X' counts' sz' /\
    X ⊆ X' /\ (1000 <= sz -> counts' = counts /\ sz' = sz) /\ (sz < 1000 -> j ∈ X' /\ sz' <= 1000).
Proof.
  intros HI Hj. unfold mode4_extra. destruct (Z.leb_spec 1000 sz).
  - exists X, counts, sz. split_and!; try done; lia.
  - destruct (m4_get _ _ _ _ _ _ HI Hj) as (v & -> & Hv & Hge & Hin). cbn [mbind res_bind].
    pose proof (m4_len _ _ _ _ _ HI) as Hlen. unfold inr in Hj.
    destruct (Z.eqb_spec v (-1)) as [->|Hne].
    + rewrite sset_total by lia; cbn [mbind res_bind].
      exists (X ∪ {[j]}), (<[Z.to_nat j:=0]> counts), (sz + 1). split; [done|].
      split; [apply m4_put; [done|done|lia|]; intros ?%Hin; lia|]. split; [set_solver|].
      split; [lia|]. intros _. split; [set_solver|lia].
    + exists X, counts, sz. split_and!; try done. intros _. split; [apply Hin; lia|lia].
Qed.

Lemma m4_extras N d js : forall X counts sz, m4 N d X counts sz -> Forall (inr N) js ->
  exists X' counts' sz', foldM mode4_extra (counts, sz) js = Ok (counts', sz') /\ m4 N d X' counts' sz' /\
    X ⊆ X' /\ (1000 <= sz -> counts' = counts /\ sz' = sz) /\ (sz < 1000 -> sz' <= 1000) /\
    (sz' < 1000 -> forall j, j ∈ js -> j ∈ X').
Proof.
  induction js as [|j js IH]; intros X counts sz HI Hl.
  - exists X, counts, sz. split_and!; try done; [lia|]. intros _ j Hj. by apply elem_of_nil in Hj.
  - apply Forall_cons in Hl as [Hj Hl]. cbn [foldM].
    destruct (m4_extra _ _ _ _ _ _ HI Hj) as (X1 & c1 & s1 & -> & HI1 & HX1 & Hbig & Hsmall).
    destruct (IH _ _ _ HI1 Hl) as (X2 & c2 & s2 & -> & HI2 & HX2 & Hbig2 & Hsmall2 & Hall).
    exists X2, c2, s2. split; [done|]. split; [done|]. split; [set_solver|].
    split; [|split].
    + intros H. destruct (Hbig H) as [-> ->]. by apply Hbig2.
    + intros H. destruct (Hsmall H) as [_ H']. destruct (decide (s1 < 1000)); [by apply Hsmall2|].
      destruct (Hbig2 ltac:(lia)) as [_ ->]. lia.
    + intros H j' Hj'. apply elem_of_cons in Hj' as [->|Hj']; [|by apply Hall].
      destruct (decide (sz < 1000)) as [Hs|Hs]; [by apply HX2, (Hsmall Hs)|].
      destruct (Hbig ltac:(lia)) as [-> ->]. destruct (Hbig2 ltac:(lia)) as [_ ->]. lia.
Qed.

(** reading the order through positions is folding over its tail *)
Lemma extra_at_fold rand (start : nat) : (start <= length rand)%nat -> forall st,
  foldM (mode4_extra_at rand) st (seqZ (Z.of_nat start) (Z.of_nat (length rand) - Z.of_nat start)) =
  foldM mode4_extra st (drop start rand).
Proof.
  remember (length rand - start)%nat as n eqn:Hn. revert start Hn.
  induction n as [|n IH]; intros start Hn Hle st.
  - rewrite seqZ_nil by lia. by rewrite drop_ge by lia.
  - rewrite seqZ_cons by lia. destruct (lookup_lt_is_Some_2 rand start) as [x Hx]; [lia|].
    rewrite (drop_S _ _ _ Hx). cbn [foldM]. unfold mode4_extra_at at 1.
    destruct st as [counts sz]. cbn [snd]. 
    assert (HE : (if 1000 <=? sz then Ok (counts, sz) else cIndex ← sget rand (Z.of_nat start); mode4_extra (counts, sz) cIndex)
        = mode4_extra (counts, sz) x).
    { rewrite (sget_nat _ _ _ Hx). cbn [mbind res_bind]. unfold mode4_extra. by destruct (1000 <=? sz). }
    rewrite HE. destruct (mode4_extra (counts, sz) x) as [st'|p]; [|done].
    replace (Z.succ (Z.of_nat start)) with (Z.of_nat (S start)) by lia.
    replace (Z.pred (Z.of_nat (length rand) - Z.of_nat start)) with (Z.of_nat (length rand) - Z.of_nat (S start)) by lia.
    apply IH; lia.
Qed.

(** exactly which nodes the fallback loops add *)
Lemma filter_ext_in {A} (P Q : A -> Prop) `{!forall x, Decision (P x)} `{!forall x, Decision (Q x)} (l : list A) :
  (forall x, x ∈ l -> P x <-> Q x) -> filter P l = filter Q l.
Proof.
  induction l as [|x l IH]; intros HE; [done|]. rewrite !filter_cons.
  rewrite IH by (intros; apply HE; by right). assert (Hx := HE x ltac:(left)). do 2 case_decide; tauto.
Qed.
Lemma m4_extras_exact N d js : forall (X : gset Z) counts sz, m4 N d X counts sz -> Forall (inr N) js -> NoDup js ->
  exists counts' sz', foldM mode4_extra (counts, sz) js = Ok (counts', sz') /\
    m4 N d (X ∪ list_to_set (take (Z.to_nat (1000 - sz)) (filter (fun j => j ∉ X) js))) counts' sz'.
Proof.
  induction js as [|j js IH]; intros X counts sz HI Hl HD.
  - exists counts, sz. split; [done|]. rewrite filter_nil, take_nil. cbn [list_to_set]. by rewrite union_empty_r_L.
  - apply Forall_cons in Hl as [Hj Hl]. apply NoDup_cons in HD as [Hni HD]. cbn [foldM]. unfold mode4_extra at 1.
    destruct (Z.leb_spec 1000 sz) as [Hs|Hs].
    + destruct (IH X counts sz HI Hl HD) as (c' & s' & E & HI'). exists c', s'. split; [done|].
      replace (Z.to_nat (1000 - sz)) with 0%nat in * by lia. rewrite take_0 in *. done.
    + destruct (m4_get _ _ _ _ _ _ HI Hj) as (v & -> & Hv & Hge & Hin). cbn [mbind res_bind].
      pose proof (m4_len _ _ _ _ _ HI) as Hlen. rewrite filter_cons.
      destruct (Z.eqb_spec v (-1)) as [->|Hne].
      * assert (HnX : j ∉ X) by (intros Hx%Hin; lia). rewrite decide_True by done.
        rewrite sset_total by (unfold inr in Hj; lia). cbn [mbind res_bind].
        destruct (IH (X ∪ {[j]}) (<[Z.to_nat j:=0]> counts) (sz + 1)) as (c' & s' & E & HI'); [by apply m4_put|done|done|].
        exists c', s'. split; [done|]. replace (Z.to_nat (1000 - sz)) with (S (Z.to_nat (1000 - (sz + 1)))) by lia.
        cbn [take list_to_set]. rewrite union_assoc_L.
        rewrite (filter_ext_in (fun j0 => j0 ∉ X) (fun j0 => j0 ∉ X ∪ {[j]})); [done|].
        intros x Hx. assert (x <> j) by (intros ->; done). set_solver.
      * assert (HX : j ∈ X) by (apply Hin; lia). rewrite decide_False by (intros H; by apply H).
        destruct (IH X counts sz HI Hl HD) as (c' & s' & E & HI'). eauto.
Qed.
Lemma m4_unique N d X Y counts sz sz' : m4 N d X counts sz -> m4 N d Y counts sz' -> X = Y.
Proof.
  intros A B. assert (HH : forall V W s s', m4 N d V counts s -> m4 N d W counts s' -> forall x, x ∈ V -> x ∈ W).
  { intros V W s s' HV HW x Hx. destruct (m4_get _ _ _ _ _ x HV (m4_rng _ _ _ _ _ HV _ Hx)) as (v & _ & Hl & _ & Hin).
    pose proof (m4_rng _ _ _ _ _ HV _ Hx) as Hr. unfold inr in Hr.
    destruct (m4_mem _ _ _ _ _ HW _ _ Hl) as [_ Hw]. rewrite Z2Nat.id in Hw by lia. by apply Hw, Hin. }
  apply set_eq. intros x. split; eauto.
Qed.
(** the two loops together: the first nodes that are not candidates, in the fallback order from [start] on, cyclically *)
Lemma m4_fallback N d (X : gset Z) counts sz rand start : m4 N d X counts sz -> rand ≡ₚ seqZ 0 N -> (start <= length rand)%nat ->
  exists c2 s2 c3 s3, foldM mode4_extra (counts, sz) (drop start rand) = Ok (c2, s2) /\
    (if s2 <? 1000 then foldM mode4_extra (c2, s2) rand else Ok (c2, s2)) = Ok (c3, s3) /\
    m4 N d (X ∪ list_to_set (take (Z.to_nat (1000 - sz)) (filter (fun j => j ∉ X) (drop start rand ++ take start rand)))) c3 s3.
Proof.
  intros HI Hrand Hst.
  assert (HD : NoDup rand) by (rewrite Hrand; apply NoDup_seqZ).
  assert (Hri : Forall (inr N) rand).
  { apply Forall_forall. intros x Hx. rewrite Hrand in Hx. apply elem_of_seqZ in Hx. unfold inr. lia. }
  pose proof HD as HD'. rewrite <- (take_drop start rand) in HD'. apply NoDup_app in HD' as (HDt & Hdis & HDd).
  set (A := filter (fun j => j ∉ X) (drop start rand)). set (B := filter (fun j => j ∉ X) (take start rand)).
  set (n := Z.to_nat (1000 - sz)).
  destruct (m4_extras_exact N d (drop start rand) X counts sz HI ltac:(by apply Forall_drop) HDd) as (c2 & s2 & E2 & I2).
  fold A n in I2. exists c2, s2.
  assert (HA : NoDup (take n A)).
  { assert (HA : NoDup A) by (by apply NoDup_filter). rewrite <- (take_drop n A) in HA. by apply NoDup_app in HA as (? & _). }
  assert (Hs2 : s2 = sz + Z.of_nat (length (take n A))).
  { rewrite (m4_size _ _ _ _ _ I2), (m4_size _ _ _ _ _ HI), size_union.
    - rewrite size_list_to_set by done. lia.
    - intros x Hx Hx'%elem_of_list_to_set. apply elem_of_take in Hx' as (i & Hx' & _). apply elem_of_list_lookup_2 in Hx'.
      apply elem_of_list_filter in Hx' as [? _]. done. }
  rewrite filter_app. fold A B.
  destruct (Z.ltb_spec s2 1000) as [Hlt|Hge].
  - destruct (m4_extras_exact N d rand _ c2 s2 I2 Hri HD) as (c3 & s3 & E3 & I3). exists c3, s3. split; [done|]. split; [done|].
    rewrite take_length in Hs2. assert (HnA : (length A < n)%nat) by lia.
    rewrite (take_ge A) in I3 by lia.
    replace (filter (fun j => j ∉ X ∪ list_to_set A) rand) with B in I3.
    + rewrite take_app_ge by lia. rewrite list_to_set_app_L, union_assoc_L.
      replace (n - length A)%nat with (Z.to_nat (1000 - s2)) by lia. done.
    + rewrite <- (take_drop start rand) at 1. rewrite filter_app.
      rewrite (filter_ext_in (fun j => j ∉ X ∪ list_to_set A) (fun j => j ∉ X) (take start rand)).
      * rewrite (filter_ext_in (fun j => j ∉ X ∪ list_to_set A) (fun _ => False) (drop start rand)).
        { fold B. assert (HF : forall l : list Z, filter (fun _ => False) l = []).
          { intros l. induction l as [|x l IH]; [done|]. rewrite filter_cons_False; [done|tauto]. }
          by rewrite HF, app_nil_r. }
        intros x Hx. split; [|done]. intros Hn. apply Hn. destruct (decide (x ∈ X)); [set_solver|].
        apply elem_of_union_r, elem_of_list_to_set, elem_of_list_filter. done.
      * intros x Hx. split; [set_solver|]. intros Hn [?|Hx']%elem_of_union; [done|].
        apply elem_of_list_to_set, elem_of_list_filter in Hx' as [_ Hx']. by apply (Hdis x).
  - exists c2, s2. split; [done|]. split; [done|].
    destruct (decide (n <= length A)%nat).
    + rewrite take_app_le by done. done.
    + rewrite take_length in Hs2. assert (1000 - sz <= 0) by lia. assert (n = 0)%nat by lia. lia.
Qed.

(** copying the counted nodes *)
Definition chosen (N : Z) (X : gset Z) : list Z := filter (fun j => j ∈ X) (seqZ 0 N).

Lemma indexed_snoc {A} (xs : list A) x : indexed (xs ++ [x]) = indexed xs ++ [(Z.of_nat (length xs), x)].
Proof.
  unfold indexed. rewrite app_length. cbn [length].
  replace (Z.of_nat (length xs + 1)) with (Z.of_nat (length xs) + 1) by lia.
  rewrite seqZ_app by lia. rewrite zip_with_app by (rewrite seqZ_length; lia). done.
Qed.

Lemma take_insert_replicate {A} (n k : nat) (xs : list A) x d : length xs = k -> (k < n)%nat ->
  <[k := x]> (xs ++ replicate (n - k) d) = (xs ++ [x]) ++ replicate (n - S k) d.
Proof.
  intros <- Hlt. rewrite insert_app_r_alt by lia. rewrite Nat.sub_diag.
  replace (n - length xs)%nat with (S (n - S (length xs))) by lia. cbn. by rewrite <- app_assoc.
Qed.

Lemma mode4_copy_spec N d X counts sz : 0 <= d -> m4 N d X counts sz ->
  mode4_copy counts sz = Ok (map pair0 (chosen N X ++ replicate (Z.to_nat d) 0)).
Proof.
  intros Hd HI. pose proof (m4_size _ _ _ _ _ HI) as Hsz. unfold mode4_copy.
  unfold make_slice. destruct (Z.ltb_spec sz 0); [lia|]. cbn [mbind res_bind].
  assert (HL : forall k : nat, (k <= length counts)%nat ->
    (length (chosen (Z.of_nat k) X) <= size X)%nat).
  { intros k Hk. unfold chosen. transitivity (size (list_to_set (filter (λ j : Z, j ∈ X) (seqZ 0 (Z.of_nat k))) : gset Z)).
    - rewrite size_list_to_set; [done|]. apply NoDup_filter, NoDup_seqZ.
    - apply subseteq_size. intros x. rewrite elem_of_list_to_set, elem_of_list_filter. tauto. }
  assert (forall k : nat, (k <= length counts)%nat ->
    foldM (fun '(active, i) '(index, value) =>
      if 0 <=? value then active ← sset active i (pair0 index); Ok (active, i + 1) else Ok (active, i))
      (replicate (Z.to_nat sz) (pair0 0), 0) (indexed (take k counts)) =
    Ok (map pair0 (chosen (Z.of_nat k) X) ++ replicate (Z.to_nat sz - length (chosen (Z.of_nat k) X)) (pair0 0),
        Z.of_nat (length (chosen (Z.of_nat k) X)))) as HF.
  { induction k as [|k IHk]; intros Hk.
    - rewrite take_0. unfold chosen. cbn. by rewrite Nat.sub_0_r.
    - destruct (lookup_lt_is_Some_2 counts k) as [v Hv]; [lia|].
      rewrite (take_S_r _ _ _ Hv), indexed_snoc, foldM_snoc, IHk by lia.
      rewrite take_length, Nat.min_l by lia.
      pose proof (HL (S k) Hk) as HLk. revert HLk. unfold chosen.
      replace (Z.of_nat (S k)) with (Z.of_nat k + 1) by lia. rewrite seqZ_app, filter_app by lia.
      cbn [seqZ]. rewrite (seqZ_cons _ 1), (seqZ_nil _ (Z.pred 1)) by lia. rewrite Z.add_0_l, filter_cons, filter_nil.
      destruct (m4_mem _ _ _ _ _ HI _ _ Hv) as [Hge Hin].
      destruct (Z.leb_spec 0 v).
      + rewrite decide_True by (apply Hin; lia). intros HLk. rewrite app_length in *. cbn [length] in *.
        rewrite sset_total.
        2:{ rewrite app_length, map_length, replicate_length. lia. }
        cbn [mbind res_bind]. rewrite Nat2Z.id.
        rewrite <- (map_length pair0 (filter (λ j : Z, j ∈ X) (seqZ 0 (Z.of_nat k)))) at 1 2.
        rewrite take_insert_replicate; [|done|rewrite map_length; lia].
        rewrite map_app, map_length. cbn [map]. do 2 f_equal; [|lia]. do 2 f_equal. lia.
      + rewrite decide_False by (rewrite <- Hin; lia). rewrite app_nil_r. done. }
  specialize (HF (length counts) ltac:(lia)). rewrite firstn_all in HF.
  match type of HF with foldM ?f _ _ = _ => change (('(active, _) ← foldM f (replicate (Z.to_nat sz) (pair0 0), 0) (indexed counts); Ok active) = Ok (map pair0 (chosen N X ++ replicate (Z.to_nat d) 0))) end.
  rewrite HF. cbn [mbind res_bind]. rewrite (m4_len _ _ _ _ _ HI). f_equal. rewrite map_app. f_equal.
  assert (length (chosen N X) = size X) as ->.
  { unfold chosen. rewrite <- (size_list_to_set (C := gset Z)) by (apply NoDup_filter, NoDup_seqZ).
    f_equal. apply set_eq. intros x. rewrite elem_of_list_to_set, elem_of_list_filter, elem_of_seqZ.
    split; [tauto|]. intros Hx. pose proof (m4_rng _ _ _ _ _ HI x Hx) as Hr. unfold inr in Hr. split; [done|lia]. }
  replace (Z.to_nat sz - size X)%nat with (Z.to_nat d) by lia.
  generalize (Z.to_nat d). intros n. induction n as [|n IHn]; [done|]. cbn. by rewrite IHn.
Qed.

Lemma size_list_le (l : list Z) : (size (list_to_set l : gset Z) <= length l)%nat.
Proof.
  induction l as [|x l IH]; [done|]. cbn [list_to_set length]. rewrite size_union_alt, size_singleton.
  enough (size (list_to_set l ∖ {[x]} : gset Z) <= size (list_to_set l : gset Z))%nat by lia.
  apply subseteq_size. set_solver.
Qed.

Lemma size_full N : 0 <= N -> size (list_to_set (seqZ 0 N) : gset Z) = Z.to_nat N.
Proof. intros. rewrite size_list_to_set by apply NoDup_seqZ. by rewrite seqZ_length. Qed.

(** What the sampling mode selects, when no index is out of range: [d] is the number of duplicated labels. *)
Lemma select_mode4_total N softmax L rand label actives g :
  0 < N -> 0 <= L -> rand ≡ₚ seqZ 0 N -> Forall (inr N) (candidates softmax label actives) ->
  let cand := candidates softmax label actives in
  let d := if softmax then Z.of_nat (length label) - Z.of_nat (size (list_to_set label : gset Z)) else 0 in
  let c := Z.of_nat (size (list_to_set cand : gset Z)) in
  exists X : gset Z, exists g',
    select_mode4 N softmax L rand label actives g =
      Ok (map pair0 (chosen N X ++ replicate (Z.to_nat d) 0), c + d, g') /\
    (forall x, x ∈ X -> inr N x) /\ (forall x, x ∈ cand -> x ∈ X) /\
    Z.of_nat (size X) + d = Z.max (c + d) (Z.min 1000 (N + d)) /\ 0 <= d /\ rstream g' = rstream g /\
    exists start : nat, start = Z.to_nat (rstream g (rpos g) mod N) /\ (Z.of_nat start < N) /\ forall x, x ∈ X <-> x ∈ cand \/
      x ∈ take (Z.to_nat (1000 - (c + d))) (filter (fun j => j ∉ cand) (drop start rand ++ take start rand)).
Proof.
  intros HN HL Hrand Hr cand d c.
  assert (Hd : 0 <= d).
  { unfold d. destruct softmax; [|lia]. pose proof (size_list_le label). lia. }
  unfold candidates in *. apply Forall_app in Hr as [Hlab Hact].
  set (X0 := list_to_set (if softmax then label else []) : gset Z).
  assert (exists counts, (if softmax && negb (Nat.eqb (length label) 0) then
      counts ← foldM (fun counts labelValue => sset counts labelValue L) (replicate (Z.to_nat N) (-1)) label;
      Ok (counts, Z.of_nat (length label)) else Ok (replicate (Z.to_nat N) (-1), 0)) = Ok (counts, d + Z.of_nat (size X0)) /\
      m4 N d X0 counts (d + Z.of_nat (size X0))) as (counts0 & E0 & I0).
  { pose proof (m4_init N ltac:(lia)) as HI. destruct softmax; cbn [andb].
    - destruct (Nat.eqb_spec (length label) 0) as [H0|H0]; cbn [negb].
      + apply nil_length_inv in H0. unfold d, X0. subst label. cbn. by eexists.
      + destruct (m4_labels N L label _ ltac:(lia) HL Hlab ∅ HI) as (c' & Hc' & HI').
        exists c'. rewrite Hc'. cbn [mbind res_bind].
        replace (∅ ∪ list_to_set label) with X0 in HI' by (unfold X0; set_solver).
        split; [|by eapply m4_shift]. unfold d, X0. do 2 f_equal. lia.
    - unfold d, X0. cbn. by eexists. }
  unfold select_mode4. rewrite E0. cbn [mbind res_bind].
  destruct (m4_counts _ _ actives _ _ _ I0 Hact) as (c1 & s1 & E1 & I1). rewrite E1. cbn [mbind res_bind].
  assert (HX1 : X0 ∪ list_to_set (concat actives) = list_to_set cand).
  { unfold X0, cand. by rewrite list_to_set_app_L. }
  rewrite HX1 in I1. pose proof (m4_size _ _ _ _ _ I1) as Hs1.
  assert (Hcand : forall x, x ∈ cand -> x ∈ (list_to_set cand : gset Z)) by (intros; by apply elem_of_list_to_set).
  assert (Hub : forall Y : gset Z, (forall x, x ∈ Y -> inr N x) -> (Z.of_nat (size Y) <= N)).
  { intros Y HY. enough (size Y <= Z.to_nat N)%nat by lia. rewrite <- (size_full N) by lia.
    apply subseteq_size. intros x Hx. apply elem_of_list_to_set, elem_of_seqZ. specialize (HY _ Hx). unfold inr in HY. lia. }
  destruct (Z.ltb_spec s1 1500).
  2:{ cbn [mbind res_bind]. rewrite (mode4_copy_spec _ _ _ _ _ Hd I1). cbn [mbind res_bind].
      exists (list_to_set cand), g. split; [do 3 f_equal; unfold c; lia|].
      split; [apply I1|]. split; [done|]. pose proof (Hub _ (m4_rng _ _ _ _ _ I1)).
      split_and!; [unfold c in *; lia|done|done|]. exists (Z.to_nat (rstream g (rpos g) mod N)). split; [done|].
      split; [pose proof (Z.mod_pos_bound (rstream g (rpos g)) N ltac:(lia)); lia|]. intros x. unfold c.
      replace (Z.to_nat (1000 - _)) with 0%nat by lia. rewrite take_0, elem_of_list_to_set, elem_of_nil. tauto. }
  unfold rand_intn. destruct (Z.leb_spec N 0); [lia|]. cbn [mbind res_bind].
  destruct (draw_below N g) as [start g'] eqn:Eg.
  assert (Hg' : rstream g' = rstream g) by (injection Eg; intros <- _; done).
  assert (Hstart : start = rstream g (rpos g) mod N) by (injection Eg; intros _ <-; done).
  apply draw_below_range in Eg; [|lia].
  assert (Hrl : length rand = Z.to_nat N) by (by rewrite Hrand, seqZ_length).
  replace start with (Z.of_nat (Z.to_nat start)) by lia.
  replace (N - Z.of_nat (Z.to_nat start)) with (Z.of_nat (length rand) - Z.of_nat (Z.to_nat start)) by lia.
  rewrite extra_at_fold by lia.
  assert (Hri : Forall (inr N) rand).
  { apply Forall_forall. intros x Hx. rewrite Hrand in Hx. apply elem_of_seqZ in Hx. unfold inr. lia. }
  destruct (m4_fallback _ _ _ _ _ rand (Z.to_nat start) I1 Hrand ltac:(lia)) as (fc2 & fs2 & fc3 & fs3 & F2 & F3 & FI).
  destruct (m4_extras _ _ (drop (Z.to_nat start) rand) _ _ _ I1) as (X2 & c2 & s2 & E2 & I2 & HX2 & Hbig & Hsmall & Hall).
  { by apply Forall_drop. }
  rewrite E2 in F2 |- *. injection F2 as <- <-.
  cbn [mbind res_bind snd].
  assert (exists X3 c3 s3, (if s2 <? 1000 then foldM mode4_extra (c2, s2) rand else Ok (c2, s2)) = Ok (c3, s3) /\
     m4 N d X3 c3 s3 /\ X2 ⊆ X3 /\ s3 = Z.max s1 (Z.min 1000 (N + d))) as (X3 & c3 & s3 & E3 & I3 & HX3 & Hs3).
  { pose proof (m4_size _ _ _ _ _ I2) as Hs2. pose proof (Hub _ (m4_rng _ _ _ _ _ I2)) as Hub2.
    assert (size (list_to_set cand : gset Z) <= size X2)%nat by (by apply subseteq_size).
    destruct (Z.ltb_spec s2 1000).
    - clear F3. destruct (m4_extras _ _ rand _ _ _ I2 Hri) as (X3 & c3 & s3 & -> & I3 & HX3 & Hbig3 & Hsmall3 & Hall3).
      exists X3, c3, s3. split; [done|]. split; [done|]. split; [done|].
      pose proof (m4_size _ _ _ _ _ I3) as Hs3. pose proof (Hub _ (m4_rng _ _ _ _ _ I3)) as Hub3.
      specialize (Hsmall3 ltac:(lia)). assert (size X2 <= size X3)%nat by (by apply subseteq_size).
      destruct (decide (s3 < 1000)) as [Hlt|Hge]; [|lia].
      assert (Z.to_nat N <= size X3)%nat; [|lia]. rewrite <- (size_full N) by lia.
      apply subseteq_size. intros x Hx%elem_of_list_to_set. apply (Hall3 Hlt). by rewrite Hrand.
    - exists X2, c2, s2. split; [done|]. split; [done|]. split; [done|].
      destruct (decide (s1 < 1000)) as [Hlt|Hge]; [specialize (Hsmall Hlt); lia|].
      destruct (Hbig ltac:(lia)) as [_ Hs]. pose proof (Hub _ (m4_rng _ _ _ _ _ I1)). lia. }
  rewrite E3 in F3 |- *. injection F3 as <- <-.
  cbn [mbind res_bind]. rewrite (mode4_copy_spec _ _ _ _ _ Hd I3). cbn [mbind res_bind].
  exists X3, g'. pose proof (m4_size _ _ _ _ _ I3) as Hz3.
  split; [do 3 f_equal; unfold c; lia|]. split; [apply I3|]. split; [set_solver|].
  unfold c. split_and!; [lia|done|done|]. exists (Z.to_nat start). split; [by rewrite Hstart|]. split; [lia|]. intros x.
  rewrite (m4_unique _ _ _ _ _ _ _ I3 FI), elem_of_union, !elem_of_list_to_set.
  replace (Z.of_nat (size (list_to_set cand : gset Z)) + d) with s1 by lia.
  erewrite (filter_ext_in (fun j => j ∉ (list_to_set cand : gset Z)) (fun j => j ∉ cand)); [done|].
  intros y _. by rewrite elem_of_list_to_set.
Qed.

Lemma sset_range {A} (xs : list A) i v ys : sset xs i v = Ok ys ->
  inr (Z.of_nat (length xs)) i /\ length ys = length xs.
Proof. intros [H ->]%sset_Ok. split; [done|]. by rewrite insert_length. Qed.

Lemma labels_range {A} (L : A) label : forall counts counts',
  foldM (fun counts labelValue => sset counts labelValue L) counts label = Ok counts' ->
  Forall (inr (Z.of_nat (length counts))) label /\ length counts' = length counts.
Proof.
  induction label as [|j label IH]; intros counts counts'; cbn [foldM]; [by intros [= <-]|].
  destruct (sset counts j L) as [c1|] eqn:E; [|done]. apply sset_range in E as [Hj Hl].
  intros H%IH. rewrite Hl in H. destruct H. split; [by apply Forall_cons|done].
Qed.

Lemma mode4_count_range ids : forall counts sz counts' sz',
  foldM mode4_count (counts, sz) ids = Ok (counts', sz') ->
  Forall (inr (Z.of_nat (length counts))) ids /\ length counts' = length counts.
Proof.
  induction ids as [|j ids IH]; intros counts sz counts' sz'; cbn [foldM]; [by intros [= <- _]|].
  unfold mode4_count at 1. destruct (sget counts j) as [v|]; [|done]. cbn [mbind res_bind].
  assert (forall w (s : Z), (c2 ← sset counts j w; Ok (c2, s)) = Panic PIndex \/
     exists c2, (c2 ← sset counts j w; Ok (c2, s)) = Ok (c2, s) /\ inr (Z.of_nat (length counts)) j /\ length c2 = length counts) as Hs.
  { intros w s0. destruct (sset counts j w) as [c2|p] eqn:E.
    - right. exists c2. split; [done|]. by eapply sset_range.
    - left. cbn. f_equal. unfold sset in E. destruct (j <? 0); [congruence|]. case_decide; congruence. }
  destruct (v =? -1).
  - destruct (Hs 1 (sz + 1)) as [->|(c2 & -> & Hj & Hl)]; [done|]. intros H%IH. rewrite Hl in H. destruct H.
    split; [by apply Forall_cons|done].
  - destruct (Hs (v + 1) sz) as [->|(c2 & -> & Hj & Hl)]; [done|]. intros H%IH. rewrite Hl in H. destruct H.
    split; [by apply Forall_cons|done].
Qed.

Lemma mode4_counts_range actives : forall counts sz counts' sz',
  foldM (foldM mode4_count) (counts, sz) actives = Ok (counts', sz') ->
  Forall (inr (Z.of_nat (length counts))) (concat actives) /\ length counts' = length counts.
Proof.
  induction actives as [|ids actives IH]; intros counts sz counts' sz'; cbn [foldM concat]; [by intros [= <- _]|].
  destruct (foldM mode4_count (counts, sz) ids) as [[c1 s1]|] eqn:E; [|done].
  apply mode4_count_range in E as [Hi Hl]. intros H%IH. rewrite Hl in H. destruct H. split; [by apply Forall_app|done].
Qed.

(** an Ok selection read no index out of range *)
Lemma select_mode4_range N softmax L rand label actives g r : 0 <= N ->
  select_mode4 N softmax L rand label actives g = Ok r ->
  0 < N /\ Forall (inr N) (candidates softmax label actives).
Proof.
  intros HN. unfold select_mode4. destruct (_ : res (list Z * Z)) as [[counts sz]|] eqn:E0; cbn [mbind res_bind]; [|done].
  destruct (foldM (foldM mode4_count) (counts, sz) actives) as [[c1 s1]|] eqn:E1; cbn [mbind res_bind]; [|done].
  intros H. assert (Forall (inr N) (if softmax then label else []) /\ length counts = Z.to_nat N) as [Hl Hc].
  { clear H E1. destruct softmax; cbn [andb] in E0.
    - destruct (Nat.eqb_spec (length label) 0) as [H0|H0]; cbn [negb] in E0.
      + apply nil_length_inv in H0 as ->. injection E0 as <- _. split; [done|]. by rewrite replicate_length.
      + destruct (foldM _ _ label) as [c'|] eqn:E; cbn [mbind res_bind] in E0; [|done]. injection E0 as <- _.
        apply labels_range in E. rewrite replicate_length, Z2Nat.id in E by lia. done.
    - injection E0 as <- _. split; [done|]. by rewrite replicate_length. }
  pose proof (mode4_counts_range _ _ _ _ _ E1) as [Ha Hc1]. rewrite Hc in Ha, Hc1. rewrite Z2Nat.id in Ha by lia.
  assert (Forall (inr N) (candidates softmax label actives)) as HC by (by apply Forall_app).
  split; [|done].
  destruct (Z.ltb_spec s1 1500).
  - unfold rand_intn in H. destruct (Z.leb_spec N 0); [|done]. cbn [mbind res_bind] in H. done.
  - destruct (decide (0 < N)); [done|]. exfalso. assert (N = 0) as -> by lia.
    assert (candidates softmax label actives = []) as HC0.
    { destruct (candidates softmax label actives) as [|x ?]; [done|]. apply Forall_cons in HC as [Hx _]. unfold inr in Hx. lia. }
    unfold candidates in HC0. apply app_eq_nil in HC0 as [HC0 HC1].
    assert (sz = 0) as ->.
    { destruct softmax; cbn [andb] in E0; [|congruence]. subst label. cbn in E0. congruence. }
    assert (foldM (foldM mode4_count) (counts, 0) actives = Ok (counts, 0)) as Hz.
    { clear -HC1. induction actives as [|ids actives IH]; [done|]. cbn [concat] in HC1.
      apply app_eq_nil in HC1 as [-> HC1]. cbn [foldM]. by apply IH. }
    rewrite Hz in E1. injection E1 as _ <-. lia.
Qed.

(** * Mode 1 *)
Lemma count_one_get ids : forall (m : gmap Z Z) j,
  foldl count_one m ids !! j = if bool_decide (j ∈ ids) then Some (default 0 (m !! j) + occ ids j) else m !! j.
Proof.
  induction ids as [|x ids IH]; intros m j; cbn [foldl].
  - by rewrite bool_decide_eq_false_2 by (by intros ?%elem_of_nil).
  - rewrite IH. unfold count_one, occ. rewrite filter_cons.
    destruct (decide (x = j)) as [->|Hne].
    + rewrite lookup_insert. rewrite (bool_decide_eq_true_2 (j ∈ j :: ids)) by left.
      rewrite from_option_Some || cbn [from_option id].
      case_bool_decide as Hj; cbn [length]; [f_equal; unfold id; lia|].
      assert (filter (fun y => y = j) ids = []) as ->; [|cbn; unfold id; f_equal; lia].
      destruct (filter (fun y => y = j) ids) as [|y l] eqn:E; [done|].
      assert (y ∈ filter (fun y => y = j) ids) as Hy by (rewrite E; left).
      apply elem_of_list_filter in Hy as [-> ?]. done.
    + rewrite lookup_insert_ne by done.
      destruct (decide (j ∈ ids)).
      * rewrite !bool_decide_eq_true_2; [done|by right|done].
      * rewrite !bool_decide_eq_false_2; [done| |done]. intros [?|?]%elem_of_cons; congruence.
Qed.

Lemma count_ones actives : forall m : gmap Z Z, foldl (foldl count_one) m actives = foldl count_one m (concat actives).
Proof. induction actives as [|ids actives IH]; intros m; [done|]. cbn [foldl concat]. by rewrite foldl_app, IH. Qed.

Lemma count_label_get L label : forall (m : gmap Z Z) j,
  foldl (count_label L) m label !! j = if bool_decide (j ∈ label) then Some L else m !! j.
Proof.
  induction label as [|x label IH]; intros m j; cbn [foldl].
  - by rewrite bool_decide_eq_false_2 by (by intros ?%elem_of_nil).
  - rewrite IH. unfold count_label. destruct (decide (j ∈ label)).
    + rewrite !bool_decide_eq_true_2; [done|by right|done].
    + rewrite (bool_decide_eq_false_2 (j ∈ label)) by done. destruct (decide (x = j)) as [->|].
      * rewrite lookup_insert, bool_decide_eq_true_2; [done|left].
      * rewrite lookup_insert_ne by done. rewrite bool_decide_eq_false_2; [done|]. intros [?|?]%elem_of_cons; congruence.
Qed.

Lemma occ_pos ids j : 0 < occ ids j <-> j ∈ ids.
Proof.
  unfold occ. destruct (filter (fun x => x = j) ids) as [|y l] eqn:E; cbn [length].
  - split; [lia|]. intros Hj. assert (j ∈ filter (fun x => x = j) ids) as H by (by apply elem_of_list_filter).
    rewrite E in H. by apply elem_of_nil in H.
  - split; [intros _|lia]. assert (y ∈ filter (fun x => x = j) ids) as H by (rewrite E; left).
    apply elem_of_list_filter in H as [-> ?]. done.
Qed.

Lemma select_mode1_spec softmax L label actives g vect g' :
  select_mode1 softmax L label actives g = (vect, g') ->
  exists act, vect = map pair0 act /\ NoDup act /\
    (forall j, j ∈ act <-> 2 < tally softmax L label actives j) /\ rstream g' = rstream g.
Proof.
  unfold select_mode1. set (c0 := if softmax && _ then _ else _).
  set (counts := foldl (foldl count_one) c0 actives).
  destruct (shuffle (map_to_list counts) g) as [kvs g1] eqn:E. intros [= <- <-].
  pose proof (shuffle_rstream _ _ _ _ E) as Hg. apply shuffle_Permutation in E.
  assert (Hget : forall j, default 0 (counts !! j) = tally softmax L label actives j).
  { intros j. unfold counts. rewrite count_ones, count_one_get. unfold tally.
    assert (default 0 (c0 !! j) = if softmax && bool_decide (j ∈ label) then L else 0) as Hc0.
    { unfold c0. destruct softmax; cbn [andb]; [|by rewrite lookup_empty].
      destruct (Nat.eqb_spec (length label) 0) as [H0|H0]; cbn [negb].
      - apply nil_length_inv in H0 as ->. rewrite lookup_empty, bool_decide_eq_false_2 by (by intros ?%elem_of_nil). done.
      - rewrite count_label_get. case_bool_decide; [done|]. by rewrite lookup_empty. }
    rewrite <- Hc0. destruct (decide (j ∈ concat actives)) as [Hj|Hj].
    - by rewrite (bool_decide_eq_true_2 (j ∈ concat actives)).
    - rewrite (bool_decide_eq_false_2 (j ∈ concat actives)) by done.
      assert (occ (concat actives) j = 0); [|lia].
      destruct (decide (0 < occ (concat actives) j)) as [?%occ_pos|]; [done|]. unfold occ in *. lia. }
  assert (forall l acc, foldl (fun vect (kv : Z * Z) => if threshold <? snd kv then vect ++ [pair0 (fst kv)] else vect) acc l
    = acc ++ map pair0 (map fst (filter (fun kv => 2 < snd kv) l))) as HF.
  { clear. induction l as [|[k v] l IH]; intros acc; cbn [foldl]; [by rewrite app_nil_r|].
    rewrite IH, filter_cons. cbn [snd fst]. unfold threshold. destruct (Z.ltb_spec 2 v).
    - rewrite decide_True by done. cbn [map]. by rewrite <- app_assoc.
    - by rewrite decide_False by lia. }
  rewrite HF. cbn [app]. eexists. split; [done|]. split; [|split; [|done]].
  - assert (NoDup (map fst kvs)) as HN.
    { rewrite E. apply NoDup_fst_map_to_list. }
    clear -HN. induction kvs as [|[k v] kvs IH]; [constructor|]. cbn [map fst] in HN. apply NoDup_cons in HN as [Hk HN].
    rewrite filter_cons. case_decide; [|by apply IH]. cbn [map fst]. apply NoDup_cons. split; [|by apply IH].
    intros Hk'. apply Hk. apply elem_of_list_fmap in Hk' as (y & -> & Hy). apply elem_of_list_filter in Hy as [_ Hy].
    by apply elem_of_list_fmap_1.
  - intros j. rewrite <- Hget. split.
    + intros Hj. apply elem_of_list_fmap in Hj as ([k v] & -> & Hy). apply elem_of_list_filter in Hy as [Hv Hy].
      rewrite E in Hy. apply elem_of_map_to_list in Hy. cbn [fst snd] in *. by rewrite Hy.
    + intros Hj. destruct (counts !! j) as [v|] eqn:Ej; cbn in Hj; [|lia].
      apply elem_of_list_fmap. exists (j, v). split; [done|]. apply elem_of_list_filter. split; [done|].
      rewrite E. by apply elem_of_map_to_list.
Qed.

(** * Mode 2 *)
Lemma foldM_Ok_prefix {S A} (I : list A -> S -> Prop) (f : S -> A -> res S) xs s s' :
  I [] s -> (forall pre x s s', I pre s -> pre ++ [x] `prefix_of` xs -> f s x = Ok s' -> I (pre ++ [x]) s') ->
  foldM f s xs = Ok s' -> I xs s'.
Proof.
  intros H0. revert xs s'. refine (rev_ind _ _ _).
  - intros s' _ [= <-]. done.
  - intros x xs IH s' Hstep. rewrite foldM_snoc. destruct (foldM f s xs) as [s1|] eqn:E; [|done].
    intros H. eapply Hstep; [|done|exact H]. apply IH; [|done].
    intros pre y s2 s3 HI Hp. apply Hstep; [done|]. etrans; [exact Hp|]. by apply prefix_app_r.
Qed.

(** a slice of [n] zero pairs whose first entries are [xs], and the set of marked nodes *)
Definition m2_active (n : nat) (xs : list Z) (active : list Pair) : Prop :=
  active = map pair0 (xs ++ replicate (n - length xs) 0) /\ (length xs <= n)%nat.
Definition m2_marks (xs : list Z) (bs : list bool) : Prop :=
  forall (j : nat) b, bs !! j = Some b -> (b = true <-> Z.of_nat j ∈ xs).

Lemma m2_put n xs active active' v : m2_active n xs active -> sset active (Z.of_nat (length xs)) (pair0 v) = Ok active' ->
  m2_active n (xs ++ [v]) active'.
Proof.
  intros [-> Hle] [Hi ->]%sset_Ok. rewrite map_length, app_length, replicate_length in Hi. split; [|rewrite app_length; cbn; lia].
  assert (forall l (i : nat), <[i := pair0 v]> (map pair0 l) = map pair0 (<[i := v]> l)) as Hf
    by (intros l i; symmetry; apply list_fmap_insert).
  rewrite Nat2Z.id, Hf. f_equal.
  replace (n - length xs)%nat with (S (n - length (xs ++ [v]))) by (rewrite app_length; cbn; lia).
  rewrite insert_app_r_alt by lia. rewrite Nat.sub_diag. cbn [replicate insert list_insert].
  by rewrite <- app_assoc.
Qed.

Lemma m2_mark xs bs bs' v : m2_marks xs bs -> sset bs v true = Ok bs' -> m2_marks (xs ++ [v]) bs' /\ 0 <= v.
Proof.
  intros H [Hi ->]%sset_Ok. split; [|lia]. intros j b. rewrite list_lookup_insert_Some. intros [(<- & <- & ?)|[Hne Hb]].
  - split; [|done]. intros _. rewrite Z2Nat.id by lia. set_solver.
  - rewrite (H _ _ Hb). set_unfold. split; [tauto|]. intros [?|?]; [done|lia].
Qed.

Lemma mode2_fill_spec fuel N n : forall xs active bs g a g',
  mode2_fill fuel N (Z.of_nat n) active bs (Z.of_nat (length xs)) g = Ok (a, g') ->
  m2_active n xs active -> m2_marks xs bs ->
  exists rest, a = map pair0 (xs ++ rest) /\ length (xs ++ rest) = n /\ NoDup rest /\ Forall (fun j => j ∉ xs) rest /\
    Forall (inr N) rest /\ rstream g' = rstream g.
Proof.
  induction fuel as [|fuel IH]; intros xs active bs g a g'; cbn [mode2_fill];
    (destruct (Z.ltb_spec (Z.of_nat (length xs)) (Z.of_nat n)) as [Hlt|Hge]; [|
      intros [= <- <-] [-> Hle] _; exists []; rewrite app_nil_r;
      replace (n - length xs)%nat with 0%nat by lia; rewrite app_nil_r; split_and!; [done|lia|constructor|by apply Forall_nil|by apply Forall_nil|done]]); [done|].
  unfold rand_intn. destruct (Z.leb_spec N 0) as [|HN0]; [done|]. cbn [mbind res_bind].
  destruct (draw_below N g) as [v g1] eqn:Eg.
  assert (Hg : rstream g1 = rstream g) by (injection Eg; intros <- _; done).
  apply draw_below_range in Eg; [|lia].
  destruct (sget bs v) as [b|] eqn:Eb; cbn [mbind res_bind]; [|done].
  apply sget_Ok in Eb as [Hv Eb].
  destruct b; cbn [negb].
  - intros H HA HM. destruct (IH _ _ _ _ _ _ H HA HM) as (rest & ? & ? & ? & ? & ? & ?). exists rest. by rewrite <- Hg.
  - destruct (sset active _ _) as [active'|] eqn:Ea; cbn [mbind res_bind]; [|done].
    destruct (sset bs v true) as [bs'|] eqn:Eb'; cbn [mbind res_bind]; [|done].
    intros H HA HM. replace (Z.of_nat (length xs) + 1) with (Z.of_nat (length (xs ++ [v]))) in H
      by (rewrite app_length; cbn; lia).
    destruct (IH _ _ _ _ _ _ H) as (rest & -> & Hl & HN' & HX & Hr & Hg').
    + by eapply m2_put.
    + by eapply m2_mark.
    + rewrite <- app_assoc in *. exists ([v] ++ rest). rewrite Forall_forall in HX. split; [done|]. split; [done|]. split.
      { cbn [app]. constructor; [|done]. intros Hv'. apply (HX _ Hv'). set_solver. }
      split.
      { cbn [app]. apply Forall_cons. split; [|apply Forall_forall; intros x Hx Hx'; apply (HX _ Hx); set_solver].
        intros Hx. pose proof (HM _ _ Eb) as Hm. rewrite Z2Nat.id in Hm by lia. by apply Hm in Hx. }
      split; [|by rewrite Hg']. cbn [app]. apply Forall_cons. split; [unfold inr; lia|done].
Qed.

Lemma make_slice_inv {A} (d : A) n xs : make_slice d n = Ok xs -> 0 <= n /\ xs = replicate (Z.to_nat n) d.
Proof. unfold make_slice. destruct (Z.ltb_spec n 0); [done|]. by intros [= <-]. Qed.

Lemma prefix_indexed {A} (pre : list (Z * A)) i x xs : pre ++ [(i, x)] `prefix_of` indexed xs ->
  i = Z.of_nat (length pre) /\ exists ys, pre = indexed ys /\ ys ++ [x] `prefix_of` xs.
Proof.
  intros [tl Htl].
  assert (forall k : nat, (k <= length xs)%nat -> indexed (take k xs) = take k (indexed xs)) as Htk.
  { intros k Hk. unfold indexed. rewrite take_length, Nat.min_l by lia.
    rewrite zip_with_take. f_equal.
    replace (Z.of_nat (length xs)) with (Z.of_nat k + (Z.of_nat (length xs) - Z.of_nat k)) by lia.
    rewrite seqZ_app by lia. rewrite take_app_alt; [done|]. rewrite seqZ_length. lia. }
  assert (Hlen : length (indexed xs) = length xs) by (unfold indexed; rewrite zip_with_length, seqZ_length; lia).
  assert (Hk : (length pre < length xs)%nat) by (rewrite <- Hlen, Htl, !app_length; cbn; lia).
  assert (Hat : indexed xs !! length pre = Some (i, x)).
  { rewrite Htl. rewrite <- app_assoc. apply list_lookup_middle. done. }
  unfold indexed in Hat. rewrite lookup_zip_with in Hat.
  destruct (seqZ 0 (Z.of_nat (length xs)) !! length pre) as [z|] eqn:Ez; cbn in Hat; [|done].
  destruct (xs !! length pre) as [y|] eqn:Ey; cbn in Hat; [|done]. injection Hat as -> ->.
  apply lookup_seqZ in Ez as [-> _]. split; [lia|]. exists (take (length pre) xs). split.
  - rewrite Htk by lia. rewrite Htl, <- app_assoc. by rewrite take_app.
  - rewrite <- (take_S_r _ _ _ Ey). exists (drop (S (length pre)) xs). by rewrite take_drop.
Qed.

Lemma indexed_length {A} (xs : list A) : length (indexed xs) = length xs.
Proof. unfold indexed. rewrite zip_with_length, seqZ_length. lia. Qed.

Lemma select_mode2_spec fuel N sparsity label g a g' :
  select_mode2 fuel N sparsity label g = Ok (a, g') ->
  exists rest, a = map pair0 (label ++ rest) /\
    Z.of_nat (length (label ++ rest)) = int_floor (fmul (f_of_Z N) sparsity) /\
    NoDup rest /\ Forall (fun j => j ∉ label) rest /\ Forall (inr N) rest /\ rstream g' = rstream g.
Proof.
  unfold select_mode2. generalize mapLen. intros ML.
  destruct (make_slice (pair0 0) _) as [act|] eqn:E1; cbn [mbind res_bind]; [|done].
  apply make_slice_inv in E1 as [Hn ->].
  destruct (make_slice false ML) as [bs|] eqn:E2; cbn [mbind res_bind]; [|done].
  apply make_slice_inv in E2 as [HM ->].
  set (n := int_floor _) in *.
  destruct (foldM _ _ (indexed label)) as [[act1 bs1]|] eqn:E3; cbn [mbind res_bind]; [|done].
  intros H.
  assert (m2_active (Z.to_nat n) label act1 /\ m2_marks label bs1) as [HA HB].
  { eapply (foldM_Ok_prefix (fun pre '(act, bs) => forall ys, pre = indexed ys -> m2_active (Z.to_nat n) ys act /\ m2_marks ys bs)) in E3;
      [by apply E3| |].
    - intros [|y ys] Hys; [|apply (f_equal length) in Hys; rewrite indexed_length in Hys; cbn in Hys; lia].
      split.
      + split; [|cbn; lia]. cbn [app length]. rewrite Nat.sub_0_r. symmetry. apply fmap_replicate.
      + intros j b [-> _]%lookup_replicate. split; [done|]. by intros ?%elem_of_nil.
    - intros pre [i x] [act bs] [act' bs'] HI Hp.
      destruct (prefix_indexed _ _ _ _ Hp) as (-> & ys & -> & _).
      destruct (sset act _ _) as [a1|] eqn:Ea; cbn [mbind res_bind]; [|done].
      destruct (sset bs x true) as [b1|] eqn:Eb; cbn [mbind res_bind]; [|done]. intros [= <- <-].
      intros zs Hzs. destruct (HI ys eq_refl) as [HA HB].
      assert (zs = ys ++ [x]) as ->.
      { rewrite indexed_length in Hzs. rewrite <- indexed_snoc in Hzs.
        assert (forall (A : Type) (l : list A), map snd (indexed l) = l) as Hsnd.
        { intros A l. unfold indexed. apply snd_zip. rewrite seqZ_length. lia. }
        apply (f_equal (map snd)) in Hzs. by rewrite !Hsnd in Hzs. }
      rewrite indexed_length in Ea. split; [by eapply m2_put|by eapply m2_mark]. }
  replace n with (Z.of_nat (Z.to_nat n)) in H by lia.
  destruct (mode2_fill_spec _ _ _ _ _ _ _ _ _ H HA HB) as (rest & -> & Hl & HN' & HX & Hr & Hg).
  exists rest. split_and!; [done|lia|done|done|done|done].
Qed.
