(** Proofs about densification. *)
From Verif.Model Require Import Densify.
From Verif.Spec Require Import HashSpec.
From Verif.Proofs Require Import BaseProofs.
From Coq Require Import Lia ZifyBool ZifyNat.

Lemma GetRandDoubleHash_ok d i c :
  0 <= dh_logNumHash d <= 31 ->
  exists r, GetRandDoubleHash d i c = Ok r /\ 0 <= r /\
   r = (8 * ((dh_randHash d).1 * (64 * (i + 1) + c))) mod 2^64 / 2 ^ (32 - dh_logNumHash d).
Proof.
  intros Hlog. unfold GetRandDoubleHash, shr64.
  rewrite (wrap64_small (32 - _)) by (unfold in_int64, minInt64, maxInt64; lia).
  replace (32 - dh_logNumHash d <? 0) with false by lia.
  replace (64 <=? 32 - dh_logNumHash d) with false by lia. cbn [mbind res_bind].
  rewrite Z.shiftr_div_pow2 by lia. rewrite !Z.shiftl_mul_pow2 by lia.
  set (r0 := (dh_randHash d).1).
  assert (E : u64 (u64 (u64 r0 * u64 (u64 (u64 (u64 i + 1) * 2^6) + u64 c)) * 2^3)
              = (8 * (r0 * (64 * (i + 1) + c))) mod 2^64).
  { assert (HU : forall z, exists k, u64 z = z + k * 2^64).
    { intros z. exists (- (z / 2^64)). unfold u64. pose proof (Z.div_mod z (2^64)). lia. }
    unfold u64 at 1.
    destruct (HU i) as [k1 ->]. destruct (HU c) as [k2 ->]. destruct (HU r0) as [k3 ->].
    match goal with |- context [u64 ?z] => lazymatch z with context [u64 _] => fail | _ => destruct (HU z) as [k4 ->] end end.
    match goal with |- context [u64 ?z] => lazymatch z with context [u64 _] => fail | _ => destruct (HU z) as [k5 ->] end end.
    match goal with |- context [u64 ?z] => lazymatch z with context [u64 _] => fail | _ => destruct (HU z) as [k6 ->] end end.
    match goal with |- context [u64 ?z] => lazymatch z with context [u64 _] => fail | _ => destruct (HU z) as [k7 ->] end end.
    set (M := 2^64). change (2^3) with 8. change (2^6) with 64.
    set (S := 64 * k1 + 64 * k4 + k5 + k2 + k6).
    rewrite <- (Z_mod_plus_full _ (- 8 * (r0 * S + k3 * (64 * (i + 1) + c) + k3 * M * S + k7)) M).
    f_equal. unfold S. ring. }
  rewrite E. set (x := (8 * _) mod 2^64).
  assert (Hx : 0 <= x < 2^64) by (apply Z.mod_pos_bound; lia).
  assert (Hp : 2 ^ 1 <= 2 ^ (32 - dh_logNumHash d)) by (apply Z.pow_le_mono_r; lia).
  change (2^1) with 2 in Hp.
  assert (Hd : 0 <= x / 2 ^ (32 - dh_logNumHash d) < 2^63).
  { split; [apply Z.div_pos; lia|]. apply Z.div_lt_upper_bound; nia. }
  rewrite wrap64_small by (unfold in_int64, minInt64, maxInt64; lia).
  eexists; split; [reflexivity|]. split; [lia|done].
Qed.

Lemma probe_index_ok d i c :
  0 <= dh_logNumHash d <= 31 -> 1 <= dh_numHashes d ->
  exists ix, probe_index d i c = Ok ix /\ probes d i c ix /\ 0 <= ix < dh_numHashes d.
Proof.
  intros Hl Hn. destruct (GetRandDoubleHash_ok d i c Hl) as (r & Hr & H0 & _).
  exists (Z.min r (dh_numHashes d - 1)). unfold probe_index. rewrite Hr. cbn [mbind res_bind].
  split; [done|]. split; [by exists r|]. lia.
Qed.

Lemma probes_functional d i c ix ix' : probes d i c ix -> probes d i c ix' -> ix = ix'.
Proof. intros (r & H & ->) (r' & H' & ->). congruence. Qed.

(** The loop, from probe [count] on. *)
Lemma probe_loop_spec {A} (empty : A -> bool) fail (look : Z -> res A) fuel count next :
  (Z.of_nat fuel = 102 - count) -> 1 <= count <= 101 ->
  (forall c, exists x, look c = Ok x) ->
  exists o, probe_loop fuel empty fail look count next = Ok o /\
    ((empty next = false /\ o = next) \/
     (empty next = true /\ exists c, count <= c <= 100 /\ look c = Ok o /\ empty o = false /\
        forall c', count <= c' < c -> exists x, look c' = Ok x /\ empty x = true) \/
     (empty next = true /\ (forall c, count <= c <= 100 -> exists x, look c = Ok x /\ empty x = true) /\
        exists x, look 101 = Ok x /\ o = fail x)).
Proof.
  intros Hf Hc Hlook. revert count next Hf Hc.
  induction fuel as [|fuel IH]; intros count next Hf Hc; [lia|].
  cbn [probe_loop]. destruct (empty next) eqn:En; [|eauto 10].
  destruct (Hlook count) as [x Hx]. rewrite Hx. cbn [mbind res_bind].
  destruct (Z.ltb_spec 100 count) as [Hgt|Hle].
  - exists (fail x). split; [done|]. right. right. assert (count = 101) as -> by lia.
    split; [done|]. split; [intros c Hcc; lia|]. eauto.
  - destruct (IH (count + 1) x) as (o & HE & Ho); [lia|lia|].
    exists o. split; [done|]. right.
    destruct Ho as [[Hx0 ->]|[(Hx1 & c & Hcr & Hlo & Heo & Hbefore)|(Hx1 & Hall & Hlast)]].
    + left. split; [done|]. exists count. split; [lia|]. split; [done|]. split; [done|]. intros c' ?; lia.
    + left. split; [done|]. exists c. split; [lia|]. split; [done|]. split; [done|].
      intros c' Hc'. destruct (decide (c' = count)) as [->|]; [eauto|]. apply Hbefore. lia.
    + right. split; [done|]. split; [|done].
      intros c Hcr. destruct (decide (c = count)) as [->|]; [eauto|]. apply Hall. lia.
Qed.

Definition empty_at {A} (empty : A -> bool) (items : list A) (ix : Z) : Prop :=
  exists it, items !! Z.to_nat ix = Some it /\ empty it = true.

Lemma densify_spec {A} d (empty : A -> bool) fail (items : list A) :
  0 <= dh_logNumHash d <= 31 -> Z.of_nat (length items) = dh_numHashes d ->
  exists out, densify d empty fail items = Ok out /\ length out = length items /\
    forall i it, items !! i = Some it ->
    exists o, out !! i = Some o /\
      ((empty it = false /\ o = it) \/
       (empty it = true /\ exists ix, 0 <= ix < dh_numHashes d /\
          borrows_from d (empty_at empty items) (Z.of_nat i) ix /\
          items !! Z.to_nat ix = Some o /\ empty o = false) \/
       (empty it = true /\ borrows_nothing d (empty_at empty items) (Z.of_nat i) /\
          exists ix x, 0 <= ix < dh_numHashes d /\ probes d (Z.of_nat i) 101 ix /\
             items !! Z.to_nat ix = Some x /\ o = fail x)).
Proof.
  intros Hlog Hlen.
  assert (HL : forall i : nat, (i < length items)%nat -> forall c, exists x ix,
    probe_index d (Z.of_nat i) c = Ok ix /\ sget items ix = Ok x /\
    probes d (Z.of_nat i) c ix /\ items !! Z.to_nat ix = Some x /\ 0 <= ix < dh_numHashes d).
  { intros i Hi c. destruct (probe_index_ok d (Z.of_nat i) c) as (ix & Hix & Hp & Hr); [done|lia|].
    destruct (sget_total items ix) as (x & Hx & Hx'); [lia|]. exists x, ix. done. }
  assert (HOne : forall (i : nat) it, items !! i = Some it ->
    exists o, probe_loop 101 empty fail (fun count => ix ← probe_index d (Z.of_nat i) count; sget items ix) 1 it = Ok o /\
      ((empty it = false /\ o = it) \/
       (empty it = true /\ exists ix, 0 <= ix < dh_numHashes d /\
          borrows_from d (empty_at empty items) (Z.of_nat i) ix /\
          items !! Z.to_nat ix = Some o /\ empty o = false) \/
       (empty it = true /\ borrows_nothing d (empty_at empty items) (Z.of_nat i) /\
          exists ix x, 0 <= ix < dh_numHashes d /\ probes d (Z.of_nat i) 101 ix /\
             items !! Z.to_nat ix = Some x /\ o = fail x))).
  { intros i it Hi. specialize (HL i (lookup_lt_Some _ _ _ Hi)).
    destruct (probe_loop_spec empty fail (fun count => ix ← probe_index d (Z.of_nat i) count; sget items ix) 101 1 it)
      as (o & HE & Ho); [lia|lia| |].
    { intros c. destruct (HL c) as (x & ix & H1 & H2 & _). exists x. by rewrite H1. }
    exists o. split; [done|].
    assert (Hlk : forall c x, (ix ← probe_index d (Z.of_nat i) c; sget items ix) = Ok x ->
       exists ix, probes d (Z.of_nat i) c ix /\ items !! Z.to_nat ix = Some x /\ 0 <= ix < dh_numHashes d).
    { intros c x Hx. destruct (HL c) as (x' & ix & H1 & H2 & H3 & H4 & H5). rewrite H1 in Hx.
      cbn [mbind res_bind] in Hx. rewrite H2 in Hx. injection Hx as ->. eauto. }
    destruct Ho as [Ho|[(He & c & Hc & Hlo & Heo & Hb)|(He & Hall & x & Hx & ->)]]; [auto| |].
    - right. left. split; [done|]. destruct (Hlk _ _ Hlo) as (ix & Hp & Hit & Hr).
      exists ix. split; [done|]. split; [|done].
      exists c. split; [done|]. split; [done|]. split.
      + intros (it' & Hit' & He'). congruence.
      + intros c' Hc'. destruct (Hb c' Hc') as (y & Hy & Hey).
        destruct (Hlk _ _ Hy) as (ix' & Hp' & Hit' & _). exists ix'. split; [done|]. by exists y.
    - right. right. split; [done|]. split.
      + intros c Hc. destruct (Hall c Hc) as (y & Hy & Hey).
        destruct (Hlk _ _ Hy) as (ix' & Hp' & Hit' & _). exists ix'. split; [done|]. by exists y.
      + destruct (Hlk _ _ Hx) as (ix & Hp & Hit & Hr). eauto 10. }
  unfold densify.
  assert (Hidx : forall i j it, indexed items !! i = Some (j, it) <-> j = Z.of_nat i /\ items !! i = Some it).
  { intros i j it. unfold indexed. rewrite lookup_zip_with_Some. split.
    - intros (a & b & [= <- <-] & H1 & H2). apply lookup_seqZ in H1. split; [lia|done].
    - intros [-> H]. exists (Z.of_nat i), it. split; [done|]. split; [|done].
      apply lookup_seqZ. apply lookup_lt_Some in H. lia. }
  match goal with |- context [mapM_res ?f _] => destruct (mapM_res_total f (indexed items)) as [out Hout] end.
  { intros [j it] Hj%elem_of_list_lookup. destruct Hj as [i Hi].
    apply Hidx in Hi as [-> Hi]. destruct (HOne _ _ Hi) as (o & HE & _). eauto. }
  exists out. split; [done|]. split.
  { apply mapM_res_length in Hout. rewrite Hout. unfold indexed. rewrite zip_with_length, seqZ_length. lia. }
  intros i it Hi. destruct (mapM_res_lookup _ _ _ i (Z.of_nat i, it) Hout) as (o & Ho & HE).
  { by apply Hidx. }
  destruct (HOne _ _ Hi) as (o' & HE' & HH). rewrite HE in HE'. injection HE' as ->. eauto.
Qed.
