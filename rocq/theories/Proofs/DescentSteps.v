(** The plain step as it should be and Adam's first step go downhill; the code's plain step need not. *)
From Coq Require Import Reals Lra.
From Verif.Spec Require Import TrainSpec BatchSpec GradSpec DescentSpec.
From Verif.Proofs Require Import GradReal DescentProofs.
Local Open Scope R_scope.
Notation unitR := (unit_ RA).

Lemma stepped_length lr d (c : list (Z * R)) : forall w : list R, length (stepped RA lr d c w) = length w.
Proof. induction c as [|p c IH]; intros w; [done|]. unfold stepped in *. cbn [fold_left]. rewrite IH. apply alter_length. Qed.

Section Steps.
  Context (lab : list Z) (feats : signal RA) (net : list (list unitR)).
  Context (HL : labels_active lab net) (HK : off_kink net feats).
  Lemma each_unit_at f j l : net !! j = Some l -> each_unit net f !! j = Some (imap (f j) l).
  Proof. intros H. unfold each_unit. by rewrite list_lookup_imap, H. Qed.
  Lemma unit_gradient j l a u : net !! j = Some l -> l !! a = Some u ->
    (forall q w, u_w RA u !! q = Some w -> D (fun x => loss lab feats (set_weight j a q x net)) w (- (err lab feats net j a * at_input (input feats net j) q))) /\
    D (fun x => loss lab feats (set_bias j a x net)) (u_b RA u) (- err lab feats net j a).
  Proof using HL HK.
    intros Hj Ha. destruct (gradient_real lab net feats j l a u HL HK Hj Ha) as (c & ds & d & Hc & Hds & Hd & HW & HB).
    assert (Ed : err lab feats net j a = d) by (unfold err; rewrite Hds; exact (f_equal (default 0) Hd)).
    assert (Ec : input feats net j = c) by exact (f_equal (default []) Hc). rewrite Ed, Ec. split; [|done].
    intros q w Hq. destruct (HW q w Hq) as (g & Hg & Hs). specialize (Hs 1). rewrite (stepped_R 1 d c _ q w Hq) in Hs. injection Hs as Hs.
    change (w + 1 * (d * at_input c q) = w - 1 * g) in Hs. set (s := at_input c q) in *.
    assert (E0 : g = - (d * s)) by (clearbody s; clear - Hs; change (num RA) with R in *; lra). by rewrite E0 in Hg.
  Qed.
  Lemma downhill_by (rate : nat -> nat -> option nat -> R) (f : R -> nat -> nat -> unitR -> unitR) :
    (forall lr j a u, u_id RA (f lr j a u) = u_id RA u /\ length (u_w RA (f lr j a u)) = length (u_w RA u) /\
       (forall q w, u_w RA u !! q = Some w ->
          u_w RA (f lr j a u) !! q = Some (w - lr * (rate j a (Some q) * - (err lab feats net j a * at_input (input feats net j) q)))) /\
       u_b RA (f lr j a u) = u_b RA u - lr * (rate j a None * - err lab feats net j a)) ->
    downhill lab feats net rate (fun lr => each_unit net (f lr)).
  Proof using HL HK.
    intros H lr. split; [unfold each_unit; apply imap_length|]. intros j l Hj. exists (imap (f lr j) l). split; [by apply each_unit_at|]. split; [apply imap_length|].
    intros a u Ha. exists (f lr j a u). destruct (H lr j a u) as (I & L & W & B). destruct (unit_gradient j l a u Hj Ha) as [GW GB].
    split; [by rewrite list_lookup_imap, Ha|]. split; [done|]. split; [done|]. split.
    - intros q w Hq. eexists. split; [by apply GW|by apply W].
    - eexists. split; [exact GB|exact B].
  Qed.
  Lemma sgd_downhill : downhill lab feats net (fun _ _ _ => 1) (sgd_net lab feats net).
  Proof using HL HK.
    apply (downhill_by (fun _ _ _ => 1) (fun lr j a u => (u_id RA u, stepped RA lr (err lab feats net j a) (input feats net j) (u_w RA u), bias_step RA false lr (err lab feats net j a) (u_b RA u)))).
    intros lr j a u. split; [done|]. split; [apply stepped_length|]. split.
    - intros q w Hq. cbn [u_w fst snd]. refine (eq_trans (stepped_R lr _ _ _ q w Hq) _). f_equal.
      change (@eq R (w + lr * (err lab feats net j a * at_input (input feats net j) q)) (w - lr * (1 * - (err lab feats net j a * at_input (input feats net j) q)))). ring.
    - cbn [u_b snd]. unfold bias_step. cbn. ring.
  Qed.
  Definition adam_rate (t : R) : R := 1 / 10 / (R_sqrt.sqrt (1 / 1000 * t * t) + / 10 ^ 8).
  Lemma adam_rate_pos t : 0 < adam_rate t.
  Proof.
    unfold adam_rate. assert (0 < R_sqrt.sqrt (1 / 1000 * t * t) + / 10 ^ 8).
    { pose proof (R_sqrt.sqrt_pos (1 / 1000 * t * t)). assert (0 < / 10 ^ 8) by (apply Rinv_0_lt_compat; apply pow_lt; lra). lra. }
    unfold Rdiv. apply Rmult_lt_0_compat; [lra|by apply Rinv_0_lt_compat].
  Qed.
  Lemma adam_first_rate lr t x : adam_first lr t x = x - lr * (adam_rate t * - t).
  Proof. unfold adam_first, adam_rate, Rdiv. ring. Qed.
  Lemma adam_downhill : exists rate, (forall j a q, 0 < rate j a q) /\ downhill lab feats net rate (adam_net lab feats net).
  Proof using HL HK.
    exists (fun j a oq => match oq with Some q => adam_rate (err lab feats net j a * at_input (input feats net j) q) | None => adam_rate (err lab feats net j a) end).
    split; [intros j a [q|]; apply adam_rate_pos|].
    apply (downhill_by _ (fun lr j a u => (u_id RA u,
      zip_with (adam_first lr) (stepped RA 1 (err lab feats net j a) (input feats net j) (replicate (length (u_w RA u)) 0)) (u_w RA u), adam_first lr (err lab feats net j a) (u_b RA u)))).
    intros lr j a u. split; [done|]. split; [|split].
    - unfold u_w at 1. cbn [fst snd]. rewrite zip_with_length. rewrite stepped_length, replicate_length. change (num RA) with R in *. lia.
    - intros q w Hq. unfold u_w at 1. cbn [fst snd]. pose proof (lookup_lt_Some _ _ _ Hq) as Lq.
      assert (HZ : replicate (length (u_w RA u)) 0 !! q = Some 0) by (by apply lookup_replicate_2).
      pose proof (stepped_R 1 (err lab feats net j a) (input feats net j) _ q 0 HZ) as HS.
      refine (eq_trans (lookup_zip_with _ _ _ q) _). change (num RA) with R in *. etransitivity; [eapply (f_equal (fun o => x ← o; y ← u_w RA u !! q; Some (adam_first lr x y))); exact HS|].
      etransitivity; [eapply (f_equal (fun o => y ← o; Some (adam_first lr _ y))); exact Hq|]. 
      change (Some (adam_first lr (0 + 1 * (err lab feats net j a * at_input (input feats net j) q)) w) = Some (w - lr * (adam_rate (err lab feats net j a * at_input (input feats net j) q) * - (err lab feats net j a * at_input (input feats net j) q)))). f_equal.
      replace (0 + 1 * (err lab feats net j a * at_input (input feats net j) q)) with (err lab feats net j a * at_input (input feats net j) q) by ring. apply adam_first_rate.
    - cbn [u_b snd]. apply adam_first_rate.
  Qed.
End Steps.
