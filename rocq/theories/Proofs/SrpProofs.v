(** Proofs about sparse_random_projection. *)
From Verif.Model Require Import Srp.
From Verif.Spec Require Import HashSpec SrpSpec.
From Verif.Proofs Require Import BaseProofs WtaProofs DwtaProofs FloatReal.
From stdpp Require Import sorting.
From Coq Require Import Lia ZifyBool ZifyNat.
Local Open Scope Z_scope.

(* ---------------- New ---------------- *)

Definition srp_row_ok (dim sam : Z) (ind : list Z) (bits : list bool) : Prop :=
  Z.of_nat (length ind) = sam /\ Z.of_nat (length bits) = sam /\ increasing ind /\
  Forall (fun f => 0 <= f < dim) ind.

Definition srp_good (t : Srp) (dim H : Z) : Prop :=
  srp_numHashes t = H /\ 0 <= srp_samSize t /\
  Z.of_nat (length (srp_indices t)) = H /\ Z.of_nat (length (srp_randBits t)) = H /\
  forall i ind bits, srp_indices t !! i = Some ind -> srp_randBits t !! i = Some bits ->
    srp_row_ok dim (srp_samSize t) ind bits.

Lemma srp_sample_ok a g k :
  (k <= length a)%nat ->
  exists bits g', foldM (srp_sample a) ([], [], g) (seqZ 0 (Z.of_nat k)) = Ok (take k a, bits, g') /\
    length bits = k.
Proof.
  induction k as [|k IH]; intros Hk; [by exists [], g|].
  destruct IH as (bits & g' & HE & Hl); [lia|].
  replace (Z.of_nat (S k)) with (Z.of_nat k + 1) by lia. rewrite seqZ_app by lia.
  rewrite foldM_app, HE. assert (seqZ (0 + Z.of_nat k) 1 = [Z.of_nat k]) as -> by done.
  cbn [foldM]. unfold srp_sample.
  destruct (lookup_lt_is_Some_2 a k) as [x Hx]; [lia|].
  rewrite (sget_nat _ _ _ Hx). cbn [mbind res_bind].
  destruct (rand_int g') as [r g''].
  rewrite (take_S_r _ _ _ Hx). eexists _, _. split; [done|]. rewrite app_length. simpl. lia.
Qed.

Lemma sort_ints_perm l : sort_ints l ≡ₚ l.
Proof. unfold sort_ints. apply merge_sort_Permutation. Qed.

Lemma sort_ints_increasing l : NoDup l -> increasing (sort_ints l).
Proof.
  intros Hnd. assert (Hs : StronglySorted Z.le (sort_ints l)).
  { unfold sort_ints. apply (StronglySorted_merge_sort Z.le). }
  assert (Hnd' : NoDup (sort_ints l)) by (by rewrite sort_ints_perm).
  revert Hs Hnd'. generalize (sort_ints l). intros l' Hs Hnd'. unfold increasing.
  induction Hs as [|x l' Hs IH Hf]; [constructor|].
  apply NoDup_cons in Hnd' as [Hx Hnd']. constructor; [by apply IH|].
  apply Forall_forall. intros y Hy. rewrite Forall_forall in Hf. specialize (Hf y Hy).
  assert (x <> y) by (intros ->; done). lia.
Qed.

Lemma srp_New_ok dim H ratio g :
  0 <= dim < 2^53 -> 1 <= ratio <= 2^53 -> 0 <= H ->
  exists t g', srp_New dim H ratio g = Ok (t, g') /\ srp_dim t = dim /\
    srp_samSize t = (dim + ratio - 1) / ratio /\ srp_good t dim H.
Proof.
  intros Hd Hr HH. unfold srp_New. rewrite int_ceil_div by lia.
  set (sam := (dim + ratio - 1) / ratio).
  assert (Hsam : 0 <= sam <= dim).
  { unfold sam. split; [apply Z.div_pos; lia|]. apply Z.lt_succ_r, Z.div_lt_upper_bound; nia. }
  unfold make_slice at 1 2. replace (dim <? 0) with false by lia. replace (H <? 0) with false by lia.
  cbn [mbind res_bind]. rewrite replicate_length, Z2Nat.id by lia.
  assert (HG : exists a inds bits g', foldM (srp_step sam) (seqZ 0 dim, [], [], g) (seqZ 0 H) = Ok (a, inds, bits, g') /\
     Z.of_nat (length inds) = H /\ Z.of_nat (length bits) = H /\
     forall i ind b, inds !! i = Some ind -> bits !! i = Some b -> srp_row_ok dim sam ind b).
  { destruct (foldM_inv_prefix (fun pre '(a, inds, bits, _) => a ≡ₚ seqZ 0 dim /\
      length inds = length pre /\ length bits = length pre /\
      forall i ind b, inds !! i = Some ind -> bits !! i = Some b -> srp_row_ok dim sam ind b)
      (srp_step sam) (seqZ 0 H) (seqZ 0 dim, [], [], g)) as ([[[a inds] bits] g'] & HE & Hp & Hl1 & Hl2 & Hrow).
    - cbv beta iota. split; [done|]. split; [done|]. split; [done|]. intros i ind b Hi. by rewrite lookup_nil in Hi.
    - intros pre x [[[a inds] bits] g0] (Hp & Hl1 & Hl2 & Hrow) _. cbv beta iota.
      unfold srp_step. destruct (shuffle a g0) as [a' g1] eqn:Es.
      apply shuffle_Permutation in Es. rewrite Hp in Es.
      unfold make_slice. replace (sam <? 0) with false by lia. cbn [mbind res_bind].
      assert (Hla : Z.of_nat (length a') = dim).
      { rewrite (Permutation_length Es), seqZ_length. lia. }
      destruct (srp_sample_ok a' g1 (Z.to_nat sam)) as (b & g2 & HE & Hlb); [lia|].
      rewrite Z2Nat.id in HE by lia. rewrite HE. cbn [mbind res_bind].
      eexists. split; [done|]. cbv beta iota. split; [done|]. rewrite !app_length. simpl.
      split; [lia|]. split; [lia|].
      assert (Hnew : srp_row_ok dim sam (sort_ints (take (Z.to_nat sam) a')) b).
      { assert (Hnd : NoDup a') by (rewrite Es; apply NoDup_seqZ).
        rewrite <- (take_drop (Z.to_nat sam) a') in Hnd. apply NoDup_app in Hnd as [Hnd _].
        split. { rewrite (Permutation_length (sort_ints_perm _)), take_length. lia. }
        split; [lia|]. split; [by apply sort_ints_increasing|].
        rewrite sort_ints_perm. apply Forall_take. rewrite Es. apply Forall_forall.
        intros f Hf%elem_of_seqZ. lia. }
      intros i ind b' Hi Hb.
      apply lookup_app_Some in Hi as [Hi|[Hi1 Hi]].
      + rewrite lookup_app_l in Hb by (apply lookup_lt_Some in Hi; lia). by eapply Hrow.
      + rewrite lookup_app_r in Hb by lia.
        replace (i - length bits)%nat with (i - length inds)%nat in Hb by lia.
        apply list_lookup_singleton_Some in Hi as [Hi0 <-]. rewrite Hi0 in Hb. injection Hb as <-. done.
    - exists a, inds, bits, g'. rewrite seqZ_length in Hl1, Hl2. split; [done|]. split; [lia|]. split; [lia|done]. }
  destruct HG as (a & inds & bits & g' & HE & Hl1 & Hl2 & Hrow). rewrite HE. cbn [mbind res_bind].
  eexists _, _. split; [done|]. split; [done|]. split; [done|].
  split; [done|]. cbn. split; [lia|]. done.
Qed.

Lemma srp_rows t dim H i : srp_good t dim H -> 0 <= i < H ->
  exists ind bits, srp_indices t !! Z.to_nat i = Some ind /\ srp_randBits t !! Z.to_nat i = Some bits /\
    srp_row_ok dim (srp_samSize t) ind bits.
Proof.
  intros (_ & _ & H1 & H2 & Hr) Hi.
  destruct (lookup_lt_is_Some_2 (srp_indices t) (Z.to_nat i)) as [ind Hind]; [lia|].
  destruct (lookup_lt_is_Some_2 (srp_randBits t) (Z.to_nat i)) as [b Hb]; [lia|]. eauto 10.
Qed.

(* ---------------- GetHash is the sign of the signed sum ---------------- *)

Lemma srp_fold_dense (ind : list Z) (bits : list bool) vector (p : Z) t :
  srp_indices t !! Z.to_nat p = Some ind -> 0 <= p -> length ind = length bits ->
  Forall (fun f => 0 <= f < Z.of_nat (length vector)) ind ->
  foldM (fun s '(j, rb) =>
        ind ← sget (srp_indices t) p;
        ix ← sget ind j;
        v ← sget vector ix;
        Ok (srp_acc s rb v)) fzero (indexed bits)
  = Ok (signed_sum (zip ind bits) vector).
Proof.
  intros Hind Hp Hl Hr. unfold signed_sum.
  assert (HS : sget (srp_indices t) p = Ok ind) by (by apply sget_Ok).
  assert (HG : forall k s, (k <= length bits)%nat ->
    foldM (fun s '(j, rb) =>
        ind ← sget (srp_indices t) p;
        ix ← sget ind j;
        v ← sget vector ix;
        Ok (srp_acc s rb v)) s (take k (indexed bits)) =
    Ok (fold_left (fun s '(f, plus) =>
      match vector !! Z.to_nat f with
      | Some v => if plus : bool then fadd s v else fsub s v
      | None => s
      end) (take k (zip ind bits)) s)).
  { induction k as [|k IH]; intros s Hk; [done|].
    destruct (lookup_lt_is_Some_2 bits k) as [b Hb]; [lia|].
    destruct (lookup_lt_is_Some_2 ind k) as [f Hf]; [lia|].
    rewrite (take_S_r (indexed bits) k (Z.of_nat k, b)) by (by apply indexed_lookup).
    rewrite (take_S_r (zip ind bits) k (f, b)) by (apply lookup_zip_with_Some; eauto).
    rewrite foldM_snoc, IH by lia. rewrite fold_left_snoc. rewrite HS. cbn [mbind res_bind].
    rewrite (sget_nat _ _ _ Hf). cbn [mbind res_bind].
    pose proof (Forall_lookup_1 _ _ _ _ Hr Hf) as Hfr. cbv beta in Hfr.
    destruct (sget_total vector f) as (v & Hv & Hv'); [lia|]. rewrite Hv, Hv'. done. }
  specialize (HG (length bits) fzero). rewrite !take_ge in HG; [by apply HG|..].
  - rewrite zip_with_length. lia.
  - rewrite indexed_length. lia.
Qed.

Lemma srp_dense_is_sign t dim H vector :
  srp_good t dim H -> dim <= Z.of_nat (length vector) ->
  0 <= H ->
  exists hs, srp_GetHash t vector = Ok hs /\ Z.of_nat (length hs) = H /\
    forall i, 0 <= i < H -> exists ind bits,
      srp_indices t !! Z.to_nat i = Some ind /\ srp_randBits t !! Z.to_nat i = Some bits /\
      hs !! Z.to_nat i = Some (srp_sign (signed_sum (zip ind bits) vector)).
Proof.
  intros Hg Hv HH. pose proof Hg as (HN & _).
  unfold srp_GetHash, make_slice. rewrite HN. replace (H <? 0) with false by lia. cbn [mbind res_bind].
  rewrite replicate_length, Z2Nat.id by lia.
  assert (Hone : forall i, 0 <= i < H -> exists ind bits,
      srp_indices t !! Z.to_nat i = Some ind /\ srp_randBits t !! Z.to_nat i = Some bits /\
      srp_hash_dense t vector i = Ok (srp_sign (signed_sum (zip ind bits) vector))).
  { intros i Hi. destruct (srp_rows _ _ _ _ Hg Hi) as (ind & bits & Hind & Hb & Hl1 & Hl2 & _ & Hr).
    exists ind, bits. split; [done|]. split; [done|]. unfold srp_hash_dense.
    rewrite (proj2 (sget_Ok (srp_randBits t) i bits)) by (split; [lia|done]). cbn [mbind res_bind].
    rewrite (srp_fold_dense ind bits vector i t); [done|done|lia|lia|].
    eapply Forall_impl; [done|]. intros f Hf. cbv beta in *. lia. }
  destruct (mapM_res_total (srp_hash_dense t vector) (seqZ 0 H)) as [hs Hhs].
  { intros i Hi%elem_of_seqZ. destruct (Hone i ltac:(lia)) as (? & ? & _ & _ & ->). eauto. }
  exists hs. split; [done|]. split; [apply mapM_res_length in Hhs; rewrite Hhs, seqZ_length; lia|].
  intros i Hi. destruct (Hone i Hi) as (ind & bits & H1 & H2 & HE). exists ind, bits. split; [done|]. split; [done|].
  destruct (mapM_res_lookup _ _ _ (Z.to_nat i) i Hhs) as (y & Hy & HE'); [apply lookup_seqZ; lia|].
  rewrite HE in HE'. by injection HE' as <-.
Qed.

(* ---------------- sparse = dense ---------------- *)

(** equal, or both zeros *)
Definition zsim (x y : float64) : Prop := x = y \/ (is_zero x = true /\ is_zero y = true).

Lemma zsim_acc s s' rb v : zsim s s' -> zsim (srp_acc s rb v) (srp_acc s' rb v).
Proof.
  intros [->|[H1 H2]]; [by left|].
  destruct s as [a| | |], s' as [b| | |]; try done. unfold zsim, srp_acc, fadd, fsub.
  destruct rb, v as [c|c| |c m e]; cbn; try (by left); right; by destruct a, b, c.
Qed.

Lemma zsim_acc_zero s s' rb : zsim s s' -> zsim s (srp_acc s' rb fzero).
Proof.
  intros H. assert (Hz : zsim s' (srp_acc s' rb fzero)).
  { unfold zsim, srp_acc, fadd, fsub. destruct rb, s' as [c|c| |c m e]; cbn; try (by left); right; by destruct c. }
  destruct H as [->|[H1 H2]]; [done|]. destruct Hz as [<-|[_ Hz]]; [by right|by right].
Qed.

Lemma zsim_sign s s' : zsim s s' -> srp_sign s = srp_sign s'.
Proof.
  intros [->|[H1 H2]]; [done|]. destruct s as [a| | |], s' as [b| | |]; done.
Qed.

(** value of feature f *)
Definition look (pairs : list Pair) (f : Z) : float64 :=
  match list_find (fun p => iv_index p = f) pairs with
  | Some (_, p) => iv_value p
  | None => fzero
  end.

Lemma look_cons_ne p pairs f : iv_index p <> f -> look (p :: pairs) f = look pairs f.
Proof.
  intros H. unfold look. cbn. rewrite decide_False by done.
  by destruct (list_find _ pairs) as [[? ?]|].
Qed.
Lemma look_cons_eq p pairs f : iv_index p = f -> look (p :: pairs) f = iv_value p.
Proof. intros H. unfold look. cbn. by rewrite decide_True. Qed.
Lemma look_none pairs f : Forall (fun p => iv_index p <> f) pairs -> look pairs f = fzero.
Proof.
  intros H. induction H as [|p pairs Hp _ IH]; [done|]. by rewrite look_cons_ne.
Qed.

Lemma fold_look_cons_gt (fs : list (Z * bool)) p pairs s :
  Forall (fun fb => iv_index p < fb.1) fs ->
  fold_left (fun s '(f, rb) => srp_acc s rb (look (p :: pairs) f)) fs s
  = fold_left (fun s '(f, rb) => srp_acc s rb (look pairs f)) fs s.
Proof.
  intros H. revert s. induction H as [|[f rb] fs Hf _ IH]; intros s; [done|].
  cbn [fold_left]. rewrite look_cons_ne by (simpl in Hf; lia). apply IH.
Qed.

Lemma fold_look_nil (fs : list (Z * bool)) s s' :
  zsim s s' -> zsim s (fold_left (fun s '(f, rb) => srp_acc s rb (look [] f)) fs s').
Proof.
  revert s'. induction fs as [|[f rb] fs IH]; intros s' H; [done|].
  cbn [fold_left]. apply IH. by apply (zsim_acc_zero s s' rb).
Qed.

Lemma increasing_lookup l i j x y : increasing l -> l !! i = Some x -> l !! j = Some y -> (i < j)%nat -> x < y.
Proof.
  intros H. revert i j. induction H as [|a l Hs IH Hf]; intros i j Hi Hj Hij; [done|].
  destruct j as [|j]; [lia|]. destruct i as [|i].
  - injection Hi as <-. rewrite Forall_forall in Hf. apply Hf. by eapply elem_of_list_lookup_2.
  - apply (IH i j); [done|done|lia].
Qed.

Lemma srp_merge_ok t data p ind bits :
  0 <= p ->
  srp_indices t !! Z.to_nat p = Some ind -> srp_randBits t !! Z.to_nat p = Some bits ->
  Z.of_nat (length ind) = srp_samSize t -> length bits = length ind -> increasing ind ->
  increasing (map iv_index data) ->
  forall fuel (i j : nat) s s', (length data - i + (length ind - j) <= fuel)%nat -> zsim s s' ->
  exists r, srp_merge fuel t data p (Z.of_nat i) (Z.of_nat j) s = Ok r /\
    zsim r (fold_left (fun s '(f, rb) => srp_acc s rb (look (drop i data) f)) (drop j (zip ind bits)) s').
Proof.
  intros Hp Hind Hbits Hsam Hlb Hinc Hdat.
  assert (HSi : sget (srp_indices t) p = Ok ind) by (by apply sget_Ok).
  assert (HSb : sget (srp_randBits t) p = Ok bits) by (by apply sget_Ok).
  assert (Hlz : length (zip ind bits) = length ind) by (rewrite zip_with_length; lia).
  assert (Hgt : forall j f b, zip ind bits !! j = Some (f, b) -> Forall (fun fb => f < fb.1) (drop (S j) (zip ind bits))).
  { intros j f b Hj. apply Forall_lookup. intros k [f' b'] Hk. rewrite lookup_drop in Hk. simpl.
    apply lookup_zip_with_Some in Hj as (? & ? & [= <- <-] & Hj & _).
    apply lookup_zip_with_Some in Hk as (? & ? & [= <- <-] & Hk & _).
    apply (increasing_lookup ind j (S j + k)); try done. lia. }
  assert (Hdgt : forall i d, data !! i = Some d -> Forall (fun q => iv_index d < iv_index q) (drop (S i) data)).
  { intros i d Hi. apply Forall_lookup. intros k q Hk. rewrite lookup_drop in Hk.
    apply (increasing_lookup (map iv_index data) i (S i + k)); [done| | |lia].
    - by rewrite list_lookup_fmap, Hi.
    - by rewrite list_lookup_fmap, Hk. }
  induction fuel as [|fuel IH]; intros i j s s' Hf Hs; cbn [srp_merge].
  - destruct (Nat.le_gt_cases (length data) i) as [Hi|Hi].
    + replace (Z.of_nat i <? Z.of_nat (length data)) with false by lia. cbn [andb].
      exists s. split; [done|]. rewrite (drop_ge data) by lia. by apply fold_look_nil.
    + replace (Z.of_nat j <? srp_samSize t) with false by lia. rewrite andb_false_r.
      exists s. split; [done|]. rewrite (drop_ge (zip ind bits)) by lia. done.
  - destruct (Nat.le_gt_cases (length data) i) as [Hi|Hi].
    { replace (Z.of_nat i <? Z.of_nat (length data)) with false by lia. cbn [andb].
      exists s. split; [done|]. rewrite (drop_ge data) by lia. by apply fold_look_nil. }
    destruct (Nat.le_gt_cases (length ind) j) as [Hj|Hj].
    { replace (Z.of_nat j <? srp_samSize t) with false by lia. rewrite andb_false_r.
      exists s. split; [done|]. rewrite (drop_ge (zip ind bits)) by lia. done. }
    replace (Z.of_nat i <? Z.of_nat (length data)) with true by lia.
    replace (Z.of_nat j <? srp_samSize t) with true by lia. cbn [andb].
    destruct (lookup_lt_is_Some_2 data i) as [d Hd]; [done|].
    destruct (lookup_lt_is_Some_2 ind j) as [f Hfj]; [done|].
    destruct (lookup_lt_is_Some_2 bits j) as [rb Hrb]; [lia|].
    assert (Hz : zip ind bits !! j = Some (f, rb)) by (apply lookup_zip_with_Some; eauto).
    rewrite (sget_nat _ _ _ Hd), HSi. cbn [mbind res_bind]. rewrite (sget_nat _ _ _ Hfj). cbn [mbind res_bind].
    replace (Z.of_nat i + 1) with (Z.of_nat (S i)) by lia. replace (Z.of_nat j + 1) with (Z.of_nat (S j)) by lia.
    rewrite (drop_S _ _ _ Hd).
    destruct (Z.eqb_spec (iv_index d) f) as [Heq|Hne].
    + rewrite HSb. cbn [mbind res_bind]. rewrite (sget_nat _ _ _ Hrb). cbn [mbind res_bind].
      rewrite (drop_S _ _ _ Hz). cbn [fold_left]. rewrite look_cons_eq by done.
      rewrite fold_look_cons_gt by (rewrite Heq; by eapply Hgt).
      apply IH; [lia|]. by apply zsim_acc.
    + destruct (Z.ltb_spec (iv_index d) f) as [Hlt|Hge].
      * rewrite fold_look_cons_gt.
        2:{ rewrite (drop_S _ _ _ Hz). constructor; [simpl; lia|].
            eapply Forall_impl; [by eapply Hgt|]. intros fb Hfb. cbv beta in *. lia. }
        apply IH; [lia|done].
      * rewrite (drop_S _ _ _ Hz). cbn [fold_left].
        rewrite look_none.
        2:{ constructor; [lia|]. eapply Forall_impl; [by eapply Hdgt|]. intros q Hq. cbv beta in *. lia. }
        rewrite <- (drop_S _ _ _ Hd). apply IH; [lia|]. by apply zsim_acc_zero.
Qed.

Lemma dense_of_lookup n pairs f : 0 <= f < n -> dense_of n pairs !! Z.to_nat f = Some (look pairs f).
Proof.
  intros Hf. unfold dense_of. rewrite list_lookup_fmap.
  rewrite (proj2 (lookup_seqZ 0 n (Z.to_nat f) f)) by lia. done.
Qed.

Lemma signed_sum_look feats n pairs :
  Forall (fun fb => 0 <= fb.1 < n) feats ->
  signed_sum feats (dense_of n pairs) = fold_left (fun s '(f, rb) => srp_acc s rb (look pairs f)) feats fzero.
Proof.
  unfold signed_sum. intros H. generalize fzero at 1 2. intros s. revert s.
  induction H as [|[f rb] feats Hf _ IH]; intros s; [done|].
  cbn [fold_left]. rewrite dense_of_lookup by done. apply IH.
Qed.

Lemma srp_sparse_dense dim H ratio g t g' n pairs :
  0 <= dim < 2^53 -> 1 <= ratio <= 2^53 -> 0 <= H ->
  srp_New dim H ratio g = Ok (t, g') -> dim <= n ->
  increasing (map iv_index pairs) ->
  exists hs, srp_GetHashSparse t pairs = Ok hs /\ srp_GetHash t (dense_of n pairs) = Ok hs.
Proof.
  intros Hd Hr HH HN Hn Hinc.
  destruct (srp_New_ok dim H ratio g Hd Hr HH) as (t' & g'' & HN' & _ & _ & Hg).
  rewrite HN in HN'. injection HN' as <- <-.
  destruct (srp_dense_is_sign t dim H (dense_of n pairs)) as (hs & HE & Hl & Hh); [done| |done|].
  { unfold dense_of. rewrite map_length, seqZ_length. lia. }
  exists hs. split; [|done].
  unfold srp_GetHashSparse, make_slice. pose proof Hg as (HNum & _). rewrite HNum.
  replace (H <? 0) with false by lia. cbn [mbind res_bind]. rewrite replicate_length, Z2Nat.id by lia.
  set (F := fun p => s ← srp_merge (length pairs + Z.to_nat (srp_samSize t)) t pairs p 0 0 fzero; Ok (srp_sign s)).
  assert (Hone : forall i, 0 <= i < H -> exists h, F i = Ok h /\ hs !! Z.to_nat i = Some h).
  { intros i Hi. destruct (srp_rows _ _ _ _ Hg Hi) as (ind & bits & Hind & Hb & Hl1 & Hl2 & Hi1 & Hr1).
    destruct (Hh i Hi) as (ind' & bits' & Hind' & Hb' & Hhi).
    rewrite Hind in Hind'. injection Hind' as <-. rewrite Hb in Hb'. injection Hb' as <-.
    destruct (srp_merge_ok t pairs i ind bits ltac:(lia) Hind Hb Hl1 ltac:(lia) Hi1 Hinc
       (length pairs + Z.to_nat (srp_samSize t)) 0 0 fzero fzero) as (r & HEr & Hsim); [lia|by left|].
    unfold F. change (Z.of_nat 0) with 0 in HEr. rewrite HEr. cbn [mbind res_bind].
    rewrite !drop_0 in Hsim. eexists. split; [done|]. rewrite Hhi. f_equal.
    rewrite signed_sum_look; [symmetry; by apply zsim_sign|].
    apply Forall_lookup. intros k [f b] (? & ? & [= <- <-] & Hk & _)%lookup_zip_with_Some.
    eapply Forall_lookup_1 in Hr1; [|done]. simpl. lia. }
  destruct (mapM_res_total F (seqZ 0 H)) as [hs' Hhs'].
  { intros i Hi%elem_of_seqZ. destruct (Hone i ltac:(lia)) as (h & -> & _). eauto. }
  rewrite Hhs'. f_equal. pose proof (mapM_res_length _ _ _ Hhs') as Hl'. rewrite seqZ_length in Hl'.
  apply list_eq. intros i. destruct (decide (i < length hs')%nat) as [Hi|Hi].
  - destruct (mapM_res_lookup _ _ _ i (Z.of_nat i) Hhs') as (y & Hy & HEy); [apply lookup_seqZ; lia|].
    destruct (Hone (Z.of_nat i) ltac:(lia)) as (h & HEh & Hhh). rewrite Nat2Z.id in Hhh.
    rewrite HEy in HEh. injection HEh as <-. by rewrite Hy, Hhh.
  - rewrite !lookup_ge_None_2 by lia. done.
Qed.

(* ---------------- negation ---------------- *)

(** [y] is the opposite of [x], up to the sign of zero *)
Definition nsim (x y : float64) : Prop := y = fneg x \/ (is_zero x = true /\ is_zero y = true).

Lemma binary_round_aux_neg s m e l :
  binary_round_aux 53 1024 (negb s) m e l = fneg (binary_round_aux 53 1024 s m e l).
Proof.
  unfold binary_round_aux. destruct (shr_fexp 53 1024 m e l) as [mrs e'].
  destruct (shr_fexp 53 1024 _ e' loc_Exact) as [mrs' e'']. destruct (shr_m mrs'); [done| |done].
  by destruct (e'' <=? 1024 - 53).
Qed.

Lemma binary_round_neg s m e : binary_round 53 1024 (negb s) m e = fneg (binary_round 53 1024 s m e).
Proof. unfold binary_round. destruct (shl_align _ _ _). apply binary_round_aux_neg. Qed.

Lemma binary_normalize_neg m e s s' : nsim (binary_normalize 53 1024 m e s) (binary_normalize 53 1024 (- m) e s').
Proof.
  destruct m; simpl; [by right|left; apply (binary_round_neg false)|left; apply (binary_round_neg true)].
Qed.

Lemma fadd_neg x y : nsim (fadd x y) (fadd (fneg x) (fneg y)).
Proof.
  unfold fadd, fneg. destruct x as [a|a| |a m e], y as [b|b| |b m' e']; try (by left).
  - simpl. destruct a, b; simpl; (by left) || (by right).
  - simpl. destruct a, b; simpl; by left.
  - simpl SFopp. unfold SFadd. 
    match goal with |- nsim (binary_normalize _ _ ?m _ _) (binary_normalize _ _ ?m' _ _) =>
      replace m' with (- m); [apply binary_normalize_neg|] end.
    destruct a, b; simpl cond_Zopp; lia.
Qed.

Lemma fsub_neg x y : nsim (fsub x y) (fsub (fneg x) (fneg y)).
Proof.
  unfold fsub, fneg. destruct x as [a|a| |a m e], y as [b|b| |b m' e']; try (by left).
  - simpl. destruct a, b; simpl; (by left) || (by right).
  - simpl. destruct a, b; simpl; by left.
  - simpl SFopp. unfold SFsub. 
    match goal with |- nsim (binary_normalize _ _ ?m _ _) (binary_normalize _ _ ?m' _ _) =>
      replace m' with (- m); [apply binary_normalize_neg|] end.
    destruct a, b; simpl cond_Zopp; lia.
Qed.

Lemma nsim_zsim x y z : nsim x y -> zsim y z -> nsim x z.
Proof.
  intros [->|[H1 H2]] [<-|[H3 H4]].
  - by left.
  - right. destruct x; done.
  - by right.
  - by right.
Qed.

Lemma nsim_acc s s' rb v : nsim s s' -> nsim (srp_acc s rb v) (srp_acc s' rb (fneg v)).
Proof.
  intros H. apply (nsim_zsim _ (srp_acc (fneg s) rb (fneg v))).
  - unfold srp_acc. destruct rb; [apply fadd_neg|apply fsub_neg].
  - apply zsim_acc. destruct H as [->|[H1 H2]]; [by left|right]. split; [by destruct s|done].
Qed.

Lemma signed_sum_neg feats vec : nsim (signed_sum feats vec) (signed_sum feats (map fneg vec)).
Proof.
  unfold signed_sum.
  assert (HG : forall s s', nsim s s' -> nsim
     (fold_left (fun s '(f, plus) => match vec !! Z.to_nat f with Some v => if plus : bool then fadd s v else fsub s v | None => s end) feats s)
     (fold_left (fun s '(f, plus) => match map fneg vec !! Z.to_nat f with Some v => if plus : bool then fadd s v else fsub s v | None => s end) feats s')).
  { induction feats as [|[f b] feats IH]; intros s s' H; [done|]. cbn [fold_left].
    apply IH. rewrite list_lookup_fmap. destruct (vec !! Z.to_nat f) as [v|]; [|done]. simpl.
    by apply (nsim_acc s s' b v). }
  apply HG. by right.
Qed.

Lemma srp_negation dim H ratio g t g' vec :
  0 <= dim < 2^53 -> 1 <= ratio <= 2^53 -> 0 <= H ->
  srp_New dim H ratio g = Ok (t, g') -> dim <= Z.of_nat (length vec) ->
  exists hs hs', srp_GetHash t vec = Ok hs /\ srp_GetHash t (map fneg vec) = Ok hs' /\
    Z.of_nat (length hs) = H /\ Z.of_nat (length hs') = H /\
    forall i, 0 <= i < H -> exists ind bits h,
      srp_indices t !! Z.to_nat i = Some ind /\ srp_randBits t !! Z.to_nat i = Some bits /\
      let s := signed_sum (zip ind bits) vec in
      hs !! Z.to_nat i = Some h /\ h = (if fleb fzero s then 0 else 1) /\
      hs' !! Z.to_nat i = Some (if is_zero s || is_nan s then h else 1 - h).
Proof.
  intros Hd Hr HH HN Hn.
  destruct (srp_New_ok dim H ratio g Hd Hr HH) as (t' & g'' & HN' & _ & _ & Hg).
  rewrite HN in HN'. injection HN' as <- <-.
  destruct (srp_dense_is_sign t dim H vec) as (hs & HE & Hl & Hh); [done|done|done|].
  destruct (srp_dense_is_sign t dim H (map fneg vec)) as (hs' & HE' & Hl' & Hh'); [done|by rewrite map_length|done|].
  exists hs, hs'. do 4 (split; [done|]). intros i Hi.
  destruct (Hh i Hi) as (ind & bits & Hind & Hb & Hhi).
  destruct (Hh' i Hi) as (ind' & bits' & Hind' & Hb' & Hhi').
  rewrite Hind in Hind'. injection Hind' as <-. rewrite Hb in Hb'. injection Hb' as <-.
  eexists ind, bits, _. split; [done|]. split; [done|]. cbv zeta. split; [exact Hhi|].
  split; [done|]. rewrite Hhi'. f_equal.
  pose proof (signed_sum_neg (zip ind bits) vec) as HS.
  generalize dependent (signed_sum (zip ind bits) (map fneg vec)). intros y _ HS.
  clear Hhi. generalize dependent (signed_sum (zip ind bits) vec). intros x HS.
  unfold srp_sign, fgeb. destruct HS as [->|[H1 H2]].
  - destruct x as [a|a| |a m e]; simpl; try done; destruct a; done.
  - destruct x, y; done.
Qed.

(* ---------------- C31 ---------------- *)
Lemma srp_new_spec dim H ratio g :
  0 <= dim < 2^53 -> 1 <= ratio <= 2^53 -> 0 <= H ->
  exists t g', srp_New dim H ratio g = Ok (t, g') /\
    Z.of_nat (length (srp_indices t)) = H /\
    (forall i ind, srp_indices t !! i = Some ind ->
       Z.of_nat (length ind) = (dim + ratio - 1) / ratio /\ increasing ind /\
       Forall (fun f => 0 <= f < dim) ind) /\
    forall vec, dim <= Z.of_nat (length vec) ->
      exists hs, srp_GetHash t vec = Ok hs /\ Z.of_nat (length hs) = H /\ Forall (fun h => h = 0 \/ h = 1) hs.
Proof.
  intros Hd Hr HH. destruct (srp_New_ok dim H ratio g Hd Hr HH) as (t & g' & HN & _ & Hs & Hg).
  exists t, g'. split; [done|]. pose proof Hg as (_ & _ & Hli & Hlb & Hrows). split; [done|]. split.
  - intros i ind Hi. destruct (lookup_lt_is_Some_2 (srp_randBits t) i) as [b Hb]; [apply lookup_lt_Some in Hi; lia|].
    destruct (Hrows i ind b Hi Hb) as (? & ? & ? & ?). rewrite Hs in *. done.
  - intros vec Hv. destruct (srp_dense_is_sign t dim H vec Hg Hv HH) as (hs & HE & Hl & Hh).
    exists hs. split; [done|]. split; [done|]. apply Forall_lookup. intros i h Hi.
    destruct (Hh (Z.of_nat i)) as (ind & bits & _ & _ & Hhi); [apply lookup_lt_Some in Hi; lia|].
    rewrite Nat2Z.id, Hi in Hhi. injection Hhi as ->. unfold srp_sign. destruct (fgeb _ _); auto.
Qed.

(** C30 witness: dimension 2, both features sampled. *)
Lemma srp_order_refuted :
  exists dim H ratio g t g' pairs pairs' hs hs',
    0 <= dim < 2^53 /\ 1 <= ratio /\ 0 <= H /\ srp_New dim H ratio g = Ok (t, g') /\
    Forall (fun p => 0 <= iv_index p < dim) pairs /\ NoDup (map iv_index pairs) /\ pairs ≡ₚ pairs' /\
    srp_GetHashSparse t pairs = Ok hs /\ srp_GetHashSparse t pairs' = Ok hs' /\ hs <> hs'.
Proof.
  exists 2, 1, 1, {| rstream := fun _ => 0; rpos := 0 |}. eexists _, _.
  exists [mkPair 0 (fneg (f_of_Z 3)); mkPair 1 fone], [mkPair 1 fone; mkPair 0 (fneg (f_of_Z 3))].
  eexists _, _. split; [lia|]. split; [lia|]. split; [lia|]. split; [vm_compute; reflexivity|].
  split; [repeat constructor; simpl; lia|].
  split. { apply NoDup_cons. split; [|apply NoDup_singleton]. intros H%elem_of_list_singleton. done. }
  split; [apply Permutation_swap|]. split; [vm_compute; reflexivity|]. split; [vm_compute; reflexivity|]. done.
Qed.

Lemma srp_order_sorted t pairs pairs' :
  increasing (map iv_index pairs) -> increasing (map iv_index pairs') -> pairs ≡ₚ pairs' ->
  srp_GetHashSparse t pairs = srp_GetHashSparse t pairs'.
Proof.
  intros H1 H2 Hp. f_equal. revert pairs' H2 Hp. 
  induction pairs as [|p pairs IH]; intros pairs' H2 Hp.
  - by apply Permutation_nil_l in Hp.
  - destruct pairs' as [|p' pairs']; [by apply Permutation_nil_r in Hp|].
    cbn [map] in H1, H2. inversion H1 as [|? ? Hs1 Hf1]; subst. inversion H2 as [|? ? Hs2 Hf2]; subst.
    assert (Hpp : p = p').
    { assert (Hi : p ∈ p' :: pairs') by (rewrite <- Hp; by left).
      assert (Hi' : p' ∈ p :: pairs) by (rewrite Hp; by left).
      apply elem_of_cons in Hi as [->|Hi]; [done|]. apply elem_of_cons in Hi' as [->|Hi']; [done|].
      rewrite Forall_forall in Hf1, Hf2.
      specialize (Hf1 (iv_index p') ltac:(by apply elem_of_list_fmap_1)).
      specialize (Hf2 (iv_index p) ltac:(by apply elem_of_list_fmap_1)). lia. }
    subst p'. f_equal. apply IH; [done|done|]. by apply (Permutation_cons_inv (a := p)).
Qed.
