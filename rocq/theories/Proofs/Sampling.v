(** The sampling of mode 2 ends when the random numbers leave nothing out. *)
From Verif.Proofs Require Import BaseProofs SelectProofs NetRng.
From Verif.Spec Require Import SafeSpec.
From stdpp Require Import sorting.
Local Open Scope Z_scope.

Lemma sget_nofuel {A} (xs : list A) i : sget xs i <> Panic PFuel.
Proof. unfold sget. destruct (i <? 0); [done|]. by destruct (xs !! _). Qed.
Lemma sset_nofuel {A} (xs : list A) i x : sset xs i x <> Panic PFuel.
Proof. unfold sset. destruct (i <? 0); [done|]. by destruct (decide _). Qed.
Lemma make_nofuel {A} (d : A) n : make_slice d n <> Panic PFuel.
Proof. unfold make_slice. by destruct (n <? 0). Qed.
Lemma foldM_nofuel {S A} (f : S -> A -> res S) xs : (forall s x, f s x <> Panic PFuel) -> forall s, foldM f s xs <> Panic PFuel.
Proof.
  intros H. induction xs as [|x xs IH]; intros s; cbn [foldM]; [done|]. specialize (H s x). destruct (f s x); [apply IH|congruence].
Qed.

Lemma not_all_taken N (xs : list Z) : Z.of_nat (length xs) < N -> exists v, 0 <= v < N /\ v ∉ xs.
Proof.
  intros Hl. destruct (decide (Forall (fun v => v ∈ xs) (seqZ 0 N))) as [HF|HF].
  - exfalso. rewrite Forall_forall in HF. assert (HS : seqZ 0 N ⊆+ xs).
    { apply NoDup_submseteq; [|done]. apply NoDup_alt. intros i j x Hi Hj. apply lookup_seqZ in Hi as [-> _]. apply lookup_seqZ in Hj as [? _]. lia. }
    apply submseteq_length in HS. rewrite seqZ_length in HS. lia.
  - apply not_Forall_Exists in HF; [|apply _]. apply Exists_exists in HF as (v & Hv & Hn). apply elem_of_seqZ in Hv. exists v. split; [lia|done].
Qed.

Lemma draw_below_eq N g : draw_below N g = (rstream g (rpos g) mod N, {| rstream := rstream g; rpos := S (rpos g) |}).
Proof. done. Qed.

Lemma mode2_fill_ends str N n W : 0 < N -> n <= N -> covers str N W ->
  forall u xs active bs g fuel, rstream g = str -> m2_marks xs bs -> n - Z.of_nat (length xs) <= Z.of_nat u -> (u * W <= fuel)%nat ->
  mode2_fill fuel N n active bs (Z.of_nat (length xs)) g <> Panic PFuel.
Proof.
  intros HN Hn HC. induction u as [|u IH]; intros xs active bs g fuel Hg HM Hu Hf.
  { destruct fuel; cbn [mode2_fill]; (destruct (Z.ltb_spec (Z.of_nat (length xs)) n); [lia|done]). }
  destruct (Z.ltb_spec (Z.of_nat (length xs)) n) as [Hlt|Hge].
  2: { destruct fuel; cbn [mode2_fill]; (destruct (Z.ltb_spec (Z.of_nat (length xs)) n); [lia|done]). }
  destruct (not_all_taken N xs) as (v & Hv & Hx); [lia|].
  assert (G : forall d g fuel, rstream g = str -> str (rpos g + d)%nat mod N = v -> (d + 1 + u * W <= fuel)%nat ->
    mode2_fill fuel N n active bs (Z.of_nat (length xs)) g <> Panic PFuel).
  { clear g fuel Hg Hf. induction d as [|d IHd]; intros g fuel Hg Hq Hf; (destruct fuel as [|fuel]; [lia|]); cbn [mode2_fill];
      (destruct (Z.ltb_spec (Z.of_nat (length xs)) n) as [_|?]; [|lia]); unfold rand_intn; (destruct (Z.leb_spec N 0) as [?|_]; [lia|]);
      rewrite draw_below_eq; cbn [mbind res_bind]; rewrite Hg; set (w := str (rpos g) mod N) in *;
      pose proof (sget_nofuel bs w) as Hnf; (destruct (sget bs w) as [b|] eqn:Eb; cbn [mbind res_bind]; [|congruence]); apply sget_Ok in Eb as [Hw Eb];
      pose proof (HM _ _ Eb) as Hm; rewrite Z2Nat.id in Hm by lia.
    - assert (w = v) as Ew. { unfold w. rewrite <- Hq. by rewrite Nat.add_0_r. }
      destruct b; cbn [negb]. { exfalso. apply Hx. rewrite <- Ew. by apply Hm. }
      pose proof (sset_nofuel active (Z.of_nat (length xs)) (pair0 w)) as H1. destruct (sset active _ _) as [act'|]; cbn [mbind res_bind]; [|congruence].
      pose proof (sset_nofuel bs w true) as H2. destruct (sset bs w true) as [bs'|] eqn:Es; cbn [mbind res_bind]; [|congruence].
      replace (Z.of_nat (length xs) + 1) with (Z.of_nat (length (xs ++ [w]))) by (rewrite app_length; cbn; lia).
      apply IH; [done|by eapply m2_mark|rewrite app_length; cbn [length]; lia|lia].
    - destruct b; cbn [negb].
      + apply IHd; [done| |lia]. cbn [rpos]. rewrite <- Hq. f_equal. f_equal. lia.
      + pose proof (sset_nofuel active (Z.of_nat (length xs)) (pair0 w)) as H1. destruct (sset active _ _) as [act'|]; cbn [mbind res_bind]; [|congruence].
        pose proof (sset_nofuel bs w true) as H2. destruct (sset bs w true) as [bs'|] eqn:Es; cbn [mbind res_bind]; [|congruence].
        replace (Z.of_nat (length xs) + 1) with (Z.of_nat (length (xs ++ [w]))) by (rewrite app_length; cbn; lia).
        apply IH; [done|by eapply m2_mark|rewrite app_length; cbn [length]; lia|lia]. }
  destruct (HC (rpos g) v Hv) as (q & Hq & Hs). apply (G (q - rpos g)%nat); [done| |].
  - by replace (rpos g + (q - rpos g))%nat with q by lia.
  - lia.
Qed.

Lemma select_mode2_ends str fuel N sp label g W : rstream g = str -> 0 < N -> int_floor (fmul (f_of_Z N) sp) <= N -> covers str N W ->
  (Z.to_nat N * W <= fuel)%nat -> select_mode2 fuel N sp label g <> Panic PFuel.
Proof.
  intros Hg HN Hn HC Hf. unfold select_mode2. generalize mapLen. intros ML. set (n := int_floor _) in *.
  pose proof (make_nofuel (pair0 0) n) as H1. destruct (make_slice (pair0 0) n) as [act|] eqn:E1; cbn [mbind res_bind]; [|congruence].
  pose proof (make_nofuel false ML) as H2. destruct (make_slice false ML) as [bs|] eqn:E2; cbn [mbind res_bind]; [|congruence].
  apply make_slice_inv in E2 as [HML ->].
  match goal with |- context [foldM ?f ?s0 ?xs] => pose proof (foldM_nofuel f xs) as H3; destruct (foldM f s0 xs) as [[act1 bs1]|p] eqn:E3 end; cbn [mbind res_bind].
  2: { intros [= ->]. eapply H3; [|exact E3]. clear. intros [act bs] [i x].
    pose proof (sset_nofuel act i (pair0 x)) as H1. destruct (sset act _ _) as [act'|]; cbn [mbind res_bind]; [|congruence].
    pose proof (sset_nofuel bs x true) as H2. destruct (sset bs x true) as [bs'|] eqn:Es; cbn [mbind res_bind]; congruence. }
  apply (mode2_fill_ends str N n W HN Hn HC (Z.to_nat n) label); [exact Hg| |lia|].
  - eapply (foldM_Ok_prefix (fun pre '(act, bs) => m2_marks (map snd pre) bs)) in E3.
    + unfold indexed in E3. cbn in E3. rewrite snd_zip in E3; [exact E3|]. rewrite seqZ_length. lia.
    + intros j b [-> _]%lookup_replicate. split; [done|]. by intros ?%elem_of_nil.
    + intros pre [i x] [act0 bs] [act' bs'] HI _.
      destruct (sset act0 _ _) as [a1|] eqn:Ea; cbn [mbind res_bind]; [|done].
      destruct (sset bs x true) as [b1|] eqn:Eb; cbn [mbind res_bind]; [|done]. intros [= <- <-].
      rewrite map_app. cbn [map snd]. by eapply m2_mark.
  - etrans; [|exact Hf]. apply Nat.mul_le_mono_r. lia.
Qed.

(** With more active nodes asked for than there are nodes, it never ends. *)
Lemma select_mode2_never fuel N sp label g : 0 <= N -> NoDup label -> Forall (fun x => 0 <= x < N) label -> N < int_floor (fmul (f_of_Z N) sp) ->
  forall r, select_mode2 fuel N sp label g <> Ok r.
Proof.
  intros H0 ND HF Hn [a g'] H. apply select_mode2_spec in H as (rest & _ & Hl & N2 & X2 & R2 & _).
  assert (HS : label ++ rest ⊆+ seqZ 0 N).
  { apply NoDup_submseteq.
    - apply NoDup_app. split; [done|]. split; [|done]. rewrite Forall_forall in X2. intros x H1 H2. by apply (X2 x).
    - intros x Hx. apply elem_of_seqZ. apply elem_of_app in Hx as [Hx|Hx]; [rewrite Forall_forall in HF; apply HF in Hx; lia|].
      rewrite Forall_forall in R2. apply R2 in Hx. unfold SelectProofs.inr in Hx. lia. }
  apply submseteq_length in HS. rewrite seqZ_length in HS.
  lia.
Qed.
