(** Steps downhill lower the loss. *)
From Verif.Spec Require Import TrainSpec BatchSpec DescentSpec.
From Verif.Proofs Require Import GradReal.
From Coq Require Import Reals Psatz.
From Verif.Spec Require Import GradSpec.
Local Open Scope R_scope.

(** * All the units move at once *)
Definition munit : Type := (R -> unitR) * (Z -> R) * R.
Definition fixed (x : R) (l : list munit) : list unitR := map (fun mu => mu.1.1 x) l.
Definition okU (x0 : R) (mu : munit) : Prop :=
  (forall x, u_id RA (mu.1.1 x) = u_id RA (mu.1.1 x0)) /\ (forall i, D (fun x => weight RA (mu.1.1 x) i) x0 (mu.1.2 i)) /\
  D (fun x => u_b RA (mu.1.1 x)) x0 mu.2.
Definition mvals (x0 : R) (tr : vals) (l : list munit) : vals :=
  map (fun mu : munit => (u_id RA (mu.1.1 x0), (fun x => net_input RA (relus (at_x tr x)) (mu.1.1 x)),
    sum_of (map (fun t => mu.1.2 t.1.1 * reluR (t.1.2 x0) + weight RA (mu.1.1 x0) t.1.1 * (gate (t.1.2 x0) * t.2)) tr) + mu.2)) l.
Lemma mvals_at x0 tr l x : Forall (okU x0) l -> at_x (mvals x0 tr l) x = pres (fixed x l) (relus (at_x tr x)).
Proof.
  intros H. unfold at_x at 1, mvals, pres, fixed. rewrite !map_map. apply map_ext_in. intros mu Hmu%elem_of_list_In. cbn [fst snd].
  rewrite Forall_forall in H. by rewrite (proj1 (H mu Hmu) x).
Qed.
Lemma D_mult f g x a b : D f x a -> D g x b -> D (fun y => f y * g y) x (a * g x + f x * b).
Proof. apply derivable_pt_lim_mult. Qed.
Lemma mvals_ok x0 tr l : okD x0 tr -> Forall (fun t => t.1.2 x0 <> 0) tr -> Forall (okU x0) l -> okD x0 (mvals x0 tr l).
Proof.
  intros H N HU. unfold okD in *. unfold mvals. apply Forall_map. eapply Forall_impl; [exact HU|]. intros mu (_ & HW & HB). cbn [compose fst snd].
  eapply (D_ext (fun x => sum_of (map (fun t => weight RA (mu.1.1 x) t.1.1 * reluR (t.1.2 x)) tr) + u_b RA (mu.1.1 x))).
  { intros x. rewrite pre_R. f_equal. unfold relus, at_x. rewrite !map_map. reflexivity. }
  apply (D_plus _ (fun x => u_b RA (mu.1.1 x))); [|exact HB].
  apply (D_sum_map (fun t x => weight RA (mu.1.1 x) t.1.1 * reluR (t.1.2 x))
    (fun t => mu.1.2 t.1.1 * reluR (t.1.2 x0) + weight RA (mu.1.1 x0) t.1.1 * (gate (t.1.2 x0) * t.2))).
  intros t Ht. rewrite Forall_forall in H, N. apply (D_mult (fun x => weight RA (mu.1.1 x) t.1.1) (fun x => reluR (t.1.2 x))); [apply HW|].
  apply (D_comp t.1.2 reluR); [by apply H|]. apply D_relu. by apply N.
Qed.

(** What the motion of the layers brings, to first order. *)
Definition layer_flow (x0 : R) (lab : list Z) (cur : signal RA) (l : list munit) (rest : list (list munit)) : R :=
  sum_of (map (fun mu : munit => errfn 1 lab (pres (fixed x0 l) cur) (map (fixed x0) rest) (u_id RA (mu.1.1 x0), net_input RA cur (mu.1.1 x0)) *
    (sum_of (map (fun p : Z * R => mu.1.2 p.1 * p.2) cur) + mu.2)) l).
Fixpoint flow (x0 : R) (lab : list Z) (cur : signal RA) (net : list (list munit)) : R :=
  match net with
  | [] => 0
  | l :: rest => layer_flow x0 lab cur l rest + flow x0 lab (relus (pres (fixed x0 l) cur)) rest
  end.
Lemma moving_D lab rest : forall tr x0, labels_on lab (last_ids (map (fun t => t.1.1) tr) (map (fixed x0) rest)) -> okD x0 tr ->
  clear (at_x tr x0) (map (fixed x0) rest) -> Forall (Forall (okU x0)) rest ->
  D (fun x => tail_loss 1 lab (at_x tr x) (map (fixed x) rest)) x0
    (- sum_of (map (fun t => errfn 1 lab (at_x tr x0) (map (fixed x0) rest) (t.1.1, t.1.2 x0) * t.2) tr)
     - flow x0 lab (relus (at_x tr x0)) rest).
Proof.
  induction rest as [|next rest IH]; intros tr x0 HL H C HU.
  - cbn [map flow]. rewrite Rminus_0_r. by apply out_D.
  - cbn [map] in *. destruct C as [N C]. assert (N' : Forall (fun t => t.1.2 x0 <> 0) tr) by (unfold at_x in N; rewrite Forall_map in N; exact N).
    inversion HU as [|? ? HU1 HU2]; subst.
    pose proof (mvals_ok x0 tr next H N' HU1) as H2.
    specialize (IH (mvals x0 tr next) x0). rewrite mvals_at in IH by done.
    assert (HL2 : labels_on lab (last_ids (map (fun t => t.1.1) (mvals x0 tr next)) (map (fixed x0) rest))).
    { unfold mvals. rewrite map_map. cbn [fst]. destruct rest; [|exact HL]. cbn [map last_ids List.last] in HL |- *.
      unfold fixed in HL. rewrite map_map in HL. exact HL. }
    assert (C2 : clear (pres (fixed x0 next) (relus (at_x tr x0))) (map (fixed x0) rest)).
    { destruct rest as [|l2 rest]; [done|]. cbn [off_kink map] in C. destruct C as [C1 C2]. split; [|by rewrite <- hidden_R].
      unfold pres. rewrite Forall_map. exact C1. }
    specialize (IH HL2 H2 C2 HU2).
    apply (D_ext (fun x => tail_loss 1 lab (at_x (mvals x0 tr next) x) (map (fixed x) rest))).
    { intros x. rewrite mvals_at by done. unfold tail_loss at 2. by rewrite <- logits_R. }
    match type of IH with D _ _ ?a => match goal with |- D _ _ ?b => replace b with a; [exact IH|] end end.
    cbn [flow]. set (cur := relus (at_x tr x0)).
    set (fx := map (fixed x0) rest) in *.
    enough (E : sum_of (map (fun t => errfn 1 lab (pres (fixed x0 next) cur) fx (t.1.1, t.1.2 x0) * t.2) (mvals x0 tr next)) =
      sum_of (map (fun t => errfn 1 lab (at_x tr x0) (fixed x0 next :: fx) (t.1.1, t.1.2 x0) * t.2) tr) + layer_flow x0 lab cur next rest) by (rewrite E; ring).
    unfold mvals. rewrite map_map. cbn [fst snd].
    set (g := fun u : unitR => errfn 1 lab (pres (fixed x0 next) cur) fx (u_id RA u, net_input RA cur u)).
    transitivity (sum_of (map (fun mu : munit => sum_of (map (fun t : Z * (R -> R) * R => g (mu.1.1 x0) * weight RA (mu.1.1 x0) t.1.1 * (gate (t.1.2 x0) * t.2)) tr) +
      g (mu.1.1 x0) * (sum_of (map (fun p : Z * R => mu.1.2 p.1 * p.2) cur) + mu.2)) next)).
    { apply sum_ext. intros mu _. fold (g (mu.1.1 x0)). rewrite GradReal.sum_plus.
      replace (sum_of (map (fun p : Z * R => mu.1.2 p.1 * p.2) cur)) with (sum_of (map (fun t : Z * (R -> R) * R => mu.1.2 t.1.1 * reluR (t.1.2 x0)) tr))
        by (unfold cur, relus, at_x; rewrite !map_map; reflexivity).
      assert (SC : sum_of (map (fun t : Z * (R -> R) * R => g (mu.1.1 x0) * weight RA (mu.1.1 x0) t.1.1 * (gate (t.1.2 x0) * t.2)) tr) =
        g (mu.1.1 x0) * sum_of (map (fun t : Z * (R -> R) * R => weight RA (mu.1.1 x0) t.1.1 * (gate (t.1.2 x0) * t.2)) tr)).
      { rewrite <- sum_scale, map_map. apply sum_ext. intros t _. apply Rmult_assoc. }
      rewrite SC. unfold g. fold cur. change (num RA) with R. ring. }
    rewrite GradReal.sum_plus. f_equal.
    rewrite sum_swap. apply sum_ext. intros t Ht. unfold errfn. fold cur. rewrite backward_R. cbn [head default].
    assert (B : map (errfn 1 lab (pres (fixed x0 next) cur) fx) (pres (fixed x0 next) cur) = map g (fixed x0 next)) by (unfold pres at 2; by rewrite map_map).
    assert (B2 : zip (fixed x0 next) (map g (fixed x0 next)) = map (fun u => (u, g u)) (fixed x0 next)) by (rewrite <- (map_id (fixed x0 next)) at 1; by rewrite zip_maps).
    replace (zip (fixed x0 next) _) with (map (fun u => (u, g u)) (fixed x0 next)) by (rewrite <- B2; f_equal; symmetry; exact B).
    rewrite Forall_forall in N'. rewrite (back_error_R (fixed x0 next) g (t.1.1, t.1.2 x0)) by (by apply N'). cbn [fst snd].
    rewrite Rmult_assoc, (Rmult_comm (sum_of _)), <- Rmult_assoc, <- sum_scale, map_map. unfold fixed. rewrite map_map. apply sum_ext. intros mu _. ring.
Qed.
Lemma net_D lab l rest feats x0 : labels_on lab (map (u_id RA) (List.last (map (fixed x0) (l :: rest)) [])) -> off_kink (map (fixed x0) (l :: rest)) feats ->
  Forall (Forall (okU x0)) (l :: rest) ->
  D (fun x => objective 1 lab (logits (map (fixed x) (l :: rest)) feats)) x0 (- flow x0 lab feats (l :: rest)).
Proof.
  intros HL HK HU. inversion HU as [|? ? HU1 HU2]; subst.
  set (tr := map (fun mu : munit => (u_id RA (mu.1.1 x0), (fun x => net_input RA feats (mu.1.1 x)), sum_of (map (fun p : Z * R => mu.1.2 p.1 * p.2) feats) + mu.2)) l : vals).
  assert (AT : forall x, at_x tr x = pres (fixed x l) feats).
  { intros x. unfold at_x, tr, pres, fixed. rewrite !map_map. apply map_ext_in. intros mu Hmu%elem_of_list_In. cbn [fst snd].
    rewrite Forall_forall in HU1. by rewrite (proj1 (HU1 mu Hmu) x). }
  assert (OK : okD x0 tr).
  { unfold okD, tr. apply Forall_map. eapply Forall_impl; [exact HU1|]. intros mu (_ & HW & HB). cbn [compose fst snd].
    eapply (D_ext (fun x => sum_of (map (fun p : Z * R => weight RA (mu.1.1 x) p.1 * p.2) feats) + u_b RA (mu.1.1 x))); [intros x; by rewrite pre_R|].
    apply (D_plus _ (fun x => u_b RA (mu.1.1 x))); [|exact HB].
    apply (D_sum_map (fun p x => weight RA (mu.1.1 x) p.1 * p.2) (fun p : Z * R => mu.1.2 p.1 * p.2)). intros p _.
    replace (mu.1.2 p.1 * p.2) with (mu.1.2 p.1 * p.2 + weight RA (mu.1.1 x0) p.1 * 0) by ring.
    apply (D_mult (fun x => weight RA (mu.1.1 x) p.1) (fun _ => p.2)); [apply HW|apply D_const]. }
  pose proof (moving_D lab rest tr x0) as M. rewrite AT in M.
  assert (HL2 : labels_on lab (last_ids (map (fun t => t.1.1) tr) (map (fixed x0) rest))).
  { unfold tr. rewrite map_map. cbn [fst]. destruct rest; [|exact HL]. cbn [map last_ids List.last] in HL |- *. unfold fixed in HL. rewrite map_map in HL. exact HL. }
  assert (CL : clear (pres (fixed x0 l) feats) (map (fixed x0) rest)).
  { destruct rest as [|l' rest]; [done|]. cbn [off_kink map] in HK. destruct HK as [K1 K2]. split; [|by rewrite <- hidden_R].
    unfold pres. rewrite Forall_map. exact K1. }
  specialize (M HL2 OK CL HU2). cbn [map].
  apply (D_ext (fun x => tail_loss 1 lab (at_x tr x) (map (fixed x) rest))).
  { intros x. rewrite AT. symmetry. apply logits_R. }
  match type of M with D _ _ ?a => match goal with |- D _ _ ?b => replace b with a; [exact M|] end end.
  cbn [flow]. unfold layer_flow. unfold tr. rewrite map_map. cbn [fst snd]. rewrite Ropp_plus_distr. reflexivity.
Qed.

(** * The first-order change has a sign *)
Lemma sum_nonneg {X} (f : X -> R) xs : (forall x, x ∈ xs -> 0 <= f x) -> 0 <= sum_of (map f xs).
Proof.
  induction xs as [|x xs IH]; intros H; cbn [map]; [rewrite sum_nil; lra|]. rewrite sum_cons. pose proof (H x (elem_of_list_here _ _)).
  assert (0 <= sum_of (map f xs)) by (apply IH; intros; apply H; by right). lra.
Qed.
Lemma sum_some_pos {X} (f : X -> R) xs x : (forall x, x ∈ xs -> 0 <= f x) -> x ∈ xs -> 0 < f x -> 0 < sum_of (map f xs).
Proof.
  induction xs as [|y xs IH]; intros H Hx P; [by apply elem_of_nil in Hx|]. cbn [map]. rewrite sum_cons.
  pose proof (H y (elem_of_list_here _ _)). assert (HT : forall z, z ∈ xs -> 0 <= f z) by (intros; apply H; by right).
  apply elem_of_cons in Hx as [->|Hx]; [pose proof (sum_nonneg f xs HT); lra|]. pose proof (IH HT Hx P). lra.
Qed.
Lemma forward_cons l rest cur : forward RA (l :: rest) cur !! 0%nat = Some cur.
Proof. by destruct rest. Qed.
Lemma forward_tail l l2 rest cur j : forward RA (l :: l2 :: rest) cur !! S j = forward RA (l2 :: rest) (relu_layer RA l cur) !! j.
Proof. reflexivity. Qed.
Definition unit_gain (d : R) (c : signal RA) (mu : munit) : R := d * (sum_of (map (fun p : Z * R => mu.1.2 p.1 * p.2) c) + mu.2).
Lemma flow_pos lab x0 net : forall cur,
  (forall j l a mu c d, net !! j = Some l -> l !! a = Some mu -> forward RA (map (fixed x0) net) cur !! j = Some c ->
     (ds ← backward RA 1 lab (map (fixed x0) net) cur !! j; ds !! a) = Some d -> 0 <= unit_gain d c mu /\ (d <> 0 -> 0 < unit_gain d c mu)) ->
  0 <= flow x0 lab cur net /\
  ((exists j a d, (ds ← backward RA 1 lab (map (fixed x0) net) cur !! j; ds !! a) = Some d /\ d <> 0) -> 0 < flow x0 lab cur net).
Proof.
  induction net as [|l rest IH]; intros cur H.
  - cbn [flow]. split; [lra|]. intros (j & a & d & Hd & _). done.
  - cbn [map] in H |- *. rewrite backward_R in H |- *. set (fx := map (fixed x0) rest) in *.
    set (g := fun mu : munit => errfn 1 lab (pres (fixed x0 l) cur) fx (u_id RA (mu.1.1 x0), net_input RA cur (mu.1.1 x0))).
    assert (B : forall a, map (errfn 1 lab (pres (fixed x0 l) cur) fx) (pres (fixed x0 l) cur) !! a = g <$> l !! a).
    { intros a. unfold pres at 2. unfold fixed at 2. rewrite !map_map. by rewrite list_lookup_fmap. }
    assert (LF : layer_flow x0 lab cur l rest = sum_of (map (fun mu => unit_gain (g mu) cur mu) l)) by reflexivity.
    assert (HN : forall mu, mu ∈ l -> 0 <= unit_gain (g mu) cur mu /\ (g mu <> 0 -> 0 < unit_gain (g mu) cur mu)).
    { intros mu [a Ha]%elem_of_list_lookup. apply (H 0%nat l a mu cur (g mu)); [done|done|apply forward_cons|].
      cbn. rewrite B, Ha. done. }
    assert (N0 : 0 <= layer_flow x0 lab cur l rest) by (rewrite LF; apply sum_nonneg; intros mu Hmu; by apply HN).
    destruct rest as [|l2 rest].
    + cbn [flow]. split; [lra|]. intros (j & a & d & Hd & NZ). destruct j as [|j]; [|done]. cbn in Hd. rewrite B in Hd.
      destruct (l !! a) as [mu|] eqn:Ha; [|done]. cbn in Hd. injection Hd as <-. rewrite LF, Rplus_0_r.
      apply (sum_some_pos _ l mu); [intros mu' Hmu'; by apply HN|by apply elem_of_list_lookup_2 in Ha|]. apply HN; [by apply elem_of_list_lookup_2 in Ha|done].
    + rewrite hidden_R in *. destruct (IH (relus (pres (fixed x0 l) cur))) as [I1 I2].
      { intros j l' a mu c d Hj Ha Hf Hb. apply (H (S j) l' a mu c d); [done|done| |done]. unfold fx. cbn [map]. rewrite forward_tail, hidden_R. exact Hf. }
      change (flow x0 lab cur (l :: l2 :: rest)) with (layer_flow x0 lab cur l (l2 :: rest) + flow x0 lab (relus (pres (fixed x0 l) cur)) (l2 :: rest)).
      split; [lra|]. intros (j & a & d & Hd & NZ). destruct j as [|j].
      * cbn in Hd. rewrite B in Hd. destruct (l !! a) as [mu|] eqn:Ha; [|done]. cbn in Hd. injection Hd as <-.
        assert (0 < layer_flow x0 lab cur l (l2 :: rest)); [|lra]. rewrite LF.
        apply (sum_some_pos _ l mu); [intros mu' Hmu'; by apply HN|by apply elem_of_list_lookup_2 in Ha|]. apply HN; [by apply elem_of_list_lookup_2 in Ha|done].
      * assert (0 < flow x0 lab (relus (pres (fixed x0 l) cur)) (l2 :: rest)); [|lra]. apply I2. by exists j, a, d.
Qed.
(** A sum over the inputs, ordered by input. *)
Definition at_input (c : list (Z * R)) (q : nat) : R := sum_of (map snd (filter (fun p : Z * R => Z.to_nat p.1 = q) c)).
Lemma sum_by_input (f : nat -> R) n c : (forall q, (n <= q)%nat -> f q = 0) ->
  sum_of (map (fun p : Z * R => f (Z.to_nat p.1) * p.2) c) = sum_of (map (fun q => f q * at_input c q) (seq 0 n)).
Proof.
  intros HF. rewrite (sum_ext (fun q => f q * at_input c q) (fun q => sum_of (map (fun p : Z * R => f q * (if decide (Z.to_nat p.1 = q) then p.2 else 0)) c)) (seq 0 n)).
  2:{ intros q _. unfold at_input. rewrite <- filter_sum, <- sum_scale, map_map. reflexivity. }
  rewrite sum_swap. apply sum_ext. intros p _. destruct (decide (Z.to_nat p.1 < n)%nat) as [L|L].
  - assert (G : forall k m, sum_of (map (fun q => f q * (if decide (Z.to_nat p.1 = q) then p.2 else 0)) (seq k m)) = if decide (k <= Z.to_nat p.1 < k + m)%nat then f (Z.to_nat p.1) * p.2 else 0).
    { intros k m. revert k. induction m as [|m IHm]; intros k; cbn [seq map]; [rewrite sum_nil; destruct decide; [lia|done]|].
      rewrite sum_cons, IHm. destruct (decide (Z.to_nat p.1 = k)) as [E|NE].
      - rewrite <- E. destruct decide; [lia|]. destruct decide; [ring|lia].
      - destruct decide, decide; first [lia|ring]. }
    rewrite G. destruct decide; [done|lia].
  - rewrite HF by lia. rewrite sum_zero; [ring|]. intros q Hq. apply elem_of_list_In, in_seq in Hq. destruct decide; [lia|ring].
Qed.

(** * Descent *)
Lemma D_line w k x : D (fun y => w + k * y) x k.
Proof.
  assert (H : D (fun y => w + k * y) x (0 + k * 1)) by (apply (D_plus (fun _ => w) (fun y => k * y)); [apply D_const|]; apply D_scal; apply derivable_pt_lim_id).
  by replace (0 + k * 1) with k in H by ring.
Qed.
Lemma neg_D f l : D f 0 l -> l < 0 -> exists r, 0 < r /\ forall x, 0 < x < r -> f x < f 0.
Proof.
  intros H L. destruct (H (- l / 2) ltac:(lra)) as [del Hd]. exists del. split; [apply cond_pos|]. intros x [X0 X1].
  specialize (Hd x ltac:(lra)). rewrite Rabs_right in Hd by lra. specialize (Hd X1). apply Rabs_def2 in Hd as [Hd _]. rewrite Rplus_0_l in Hd.
  assert (Q : (f x - f 0) / x < 0) by lra. apply (Rmult_lt_compat_r x) in Q; [|done]. unfold Rdiv in Q. rewrite Rmult_assoc, Rinv_l in Q by lra. lra.
Qed.
Lemma output_error lab net : forall cur k, labels_on lab (map (u_id RA) (List.last net [])) -> net <> [] -> k ∈ map (u_id RA) (List.last net []) -> k ∉ lab ->
  exists j a d, (ds ← backward RA 1 lab net cur !! j; ds !! a) = Some d /\ d <> 0.
Proof.
  induction net as [|l rest IH]; intros cur k HL NE Hk Nk; [done|]. rewrite backward_R. destruct rest as [|l2 rest].
  - cbn [List.last] in *. apply elem_of_list_fmap in Hk as (u & -> & [a Ha]%elem_of_list_lookup). exists 0%nat, a.
    assert (NZ : pres l cur <> []) by (unfold pres; destruct l; [done|discriminate]).
    exists (errfn 1 lab (pres l cur) [] (u_id RA u, net_input RA cur u)). split.
    + cbn. unfold pres at 2. rewrite map_map. by rewrite list_lookup_fmap, Ha.
    + unfold errfn. rewrite (out_error_R 1 lab (pres l cur) (u_id RA u, net_input RA cur u) NZ). cbn [fst snd].
      rewrite bool_decide_false by done. assert (0 < exp (net_input RA cur u) / Zs (pres l cur) / 1); [|lra].
      assert (PZ : 0 < Zs (pres l cur)) by (apply sum_pos; [intros; apply exp_pos|done]). unfold Rdiv.
      apply Rmult_lt_0_compat; [|lra]. apply Rmult_lt_0_compat; [apply exp_pos|by apply Rinv_0_lt_compat].
  - destruct (IH (relu_layer RA l cur) k) as (j & a & d & Hd & NZ); [done..|]. by exists (S j), a, d.
Qed.
Section Down.
  Context (lab : list Z) (feats : signal RA) (net : list (list unitR)) (rate : nat -> nat -> option nat -> R) (path : R -> list (list unitR)).
  Context (HL : labels_active lab net) (HK : off_kink net feats) (HR : forall j a q, 0 < rate j a q) (HP : downhill lab feats net rate path).
  Definition mu_of (j a : nat) (u : unitR) : munit :=
    (fun x => default u (l ← path x !! j; l !! a),
     fun i => if decide (Z.to_nat i < length (u_w RA u))%nat then rate j a (Some (Z.to_nat i)) * (err lab feats net j a * at_input (input feats net j) (Z.to_nat i)) else 0,
     rate j a None * err lab feats net j a).
  Definition mnet : list (list munit) := imap (fun j l => imap (mu_of j) l) net.
  Lemma path_unit j l a u : net !! j = Some l -> l !! a = Some u ->
    exists c ds d, forward RA net feats !! j = Some c /\ backward RA 1 lab net feats !! j = Some ds /\ ds !! a = Some d /\
    err lab feats net j a = d /\ input feats net j = c /\
    forall x, exists l' u', path x !! j = Some l' /\ l' !! a = Some u' /\ u_id RA u' = u_id RA u /\ length (u_w RA u') = length (u_w RA u) /\
      (forall q w, u_w RA u !! q = Some w -> u_w RA u' !! q = Some (w + x * (rate j a (Some q) * (d * at_input c q)))) /\
      u_b RA u' = u_b RA u + x * (rate j a None * d).
  Proof using HL HK HP.
    intros Hj Ha. destruct (gradient_real lab net feats j l a u HL HK Hj Ha) as (c & ds & d & Hc & Hds & Hd & HW & HB).
    exists c, ds, d. split; [done|]. split; [done|]. split; [done|]. split; [unfold err; rewrite Hds; exact (f_equal (default 0) Hd)|]. split; [exact (f_equal (default []) Hc)|].
    intros x. destruct (HP x) as [_ H]. destruct (H j l Hj) as (l' & Hl' & _ & H'). destruct (H' a u Ha) as (u' & Hu' & I & LW & W & B).
    exists l', u'. split; [done|]. split; [done|]. split; [done|]. split; [done|]. split.
    - intros q w Hq. destruct (W q w Hq) as (g & Hg & ->). destruct (HW q w Hq) as (g' & Hg' & Hs).
      assert (g = g') by (eapply uniqueness_limite; eassumption). subst g'. specialize (Hs 1). rewrite (stepped_R 1 d c _ q w Hq) in Hs. injection Hs as Hs.
      f_equal. change (num RA) with R in *. change (w + 1 * (d * at_input c q) = w - 1 * g) in Hs. set (s := at_input c q) in *.
      assert (E0 : g = - (d * s)) by (clearbody s; clear - Hs; lra). rewrite E0. ring.
    - destruct B as (g & Hg & ->). assert (g = - d) by (eapply uniqueness_limite; eassumption). subst g. refine (_ : @eq R _ _). ring.
  Qed.
  Lemma mnet_at x : map (fixed x) mnet = path x.
  Proof using HL HK HP.
    destruct (HP x) as [LN H]. apply list_eq. intros j. rewrite list_lookup_fmap. unfold mnet. rewrite list_lookup_imap.
    destruct (net !! j) as [l|] eqn:Hj; cbn; [|apply lookup_ge_None in Hj; symmetry; apply lookup_ge_None; lia].
    destruct (H j l Hj) as (l' & Hl' & LL & _). rewrite Hl'. f_equal. apply list_eq. intros a. unfold fixed. rewrite list_lookup_fmap, list_lookup_imap.
    destruct (l !! a) as [u|] eqn:Ha; cbn; [|apply lookup_ge_None in Ha; symmetry; apply lookup_ge_None; lia].
    rewrite Hl'. cbn. destruct (path_unit j l a u Hj Ha) as (? & ? & ? & ? & ? & ? & ? & ? & HX). destruct (HX x) as (l2 & u' & Hl2 & Hu' & _). rewrite Hl' in Hl2. injection Hl2 as <-. by rewrite Hu'.
  Qed.
  Lemma path_0 : path 0 = net.
  Proof using HL HK HP.
    destruct (HP 0) as [LN H]. apply list_eq. intros j. destruct (net !! j) as [l|] eqn:Hj; [|apply lookup_ge_None in Hj; apply lookup_ge_None; lia].
    destruct (H j l Hj) as (l' & Hl' & LL & _). rewrite Hl'. f_equal. apply list_eq. intros a.
    destruct (l !! a) as [u|] eqn:Ha; [|apply lookup_ge_None in Ha; apply lookup_ge_None; lia].
    destruct (path_unit j l a u Hj Ha) as (? & ? & ? & ? & ? & ? & ? & ? & HX). destruct (HX 0) as (l2 & u' & Hl2 & Hu' & I & LW & W & B).
    rewrite Hl' in Hl2. injection Hl2 as <-. rewrite Hu'. f_equal. destruct u as [[i w] b], u' as [[i' w'] b']. unfold u_id, u_w, u_b in *. cbn [fst snd] in *. subst i'.
    rewrite Rmult_0_l, Rplus_0_r in B. subst b'. f_equal. f_equal. apply list_eq. intros q. destruct (w !! q) as [y|] eqn:Hq.
    - refine (eq_trans (W q y Hq) _). f_equal. refine (_ : @eq R _ _). ring.
    - apply lookup_ge_None in Hq. apply lookup_ge_None. change (num RA) with R in *. lia.
  Qed.
  Lemma mnet_ok : Forall (Forall (okU 0)) mnet.
  Proof using HL HK HP.
    apply Forall_lookup. intros j ml Hml. unfold mnet in Hml. rewrite list_lookup_imap in Hml. destruct (net !! j) as [l|] eqn:Hj; [|done]. injection Hml as <-.
    apply Forall_lookup. intros a mu Hmu. rewrite list_lookup_imap in Hmu. destruct (l !! a) as [u|] eqn:Ha; [|done]. injection Hmu as <-.
    destruct (path_unit j l a u Hj Ha) as (c & ds & d & _ & _ & _ & Ed & Ec & HX).
    assert (FX : forall x, exists u', (mu_of j a u).1.1 x = u' /\ u_id RA u' = u_id RA u /\ length (u_w RA u') = length (u_w RA u) /\
      (forall q w, u_w RA u !! q = Some w -> u_w RA u' !! q = Some (w + x * (rate j a (Some q) * (d * at_input c q)))) /\
      u_b RA u' = u_b RA u + x * (rate j a None * d)).
    { intros x. destruct (HX x) as (l' & u' & Hl' & Hu' & R0). exists u'. split; [|exact R0]. cbn. rewrite Hl'. cbn. by rewrite Hu'. }
    split; [|split].
    - intros x. destruct (FX x) as (u1 & -> & -> & _). destruct (FX 0) as (u2 & -> & -> & _). done.
    - intros i. unfold mu_of. cbn [fst snd]. rewrite Ed, Ec. destruct decide as [L|L].
      + destruct (lookup_lt_is_Some_2 _ _ L) as [w Hw].
        apply (D_ext (fun x => w + (rate j a (Some (Z.to_nat i)) * (d * at_input c (Z.to_nat i))) * x)).
        { intros x. destruct (FX x) as (u' & E & _ & _ & W & _). unfold mu_of in E. cbn [fst snd] in E. rewrite E. symmetry. refine (eq_trans (f_equal (default 0) (W _ _ Hw)) _). refine (_ : @eq R _ _). cbn. ring. }
        apply D_line.
      + apply (D_ext (fun _ => 0)); [|apply D_const]. intros x. destruct (FX x) as (u' & E & _ & LW & _). unfold mu_of in E. cbn [fst snd] in E. rewrite E. symmetry.
        refine (f_equal (default 0) (proj2 (lookup_ge_None (u_w RA u') (Z.to_nat i)) _)). rewrite LW. lia.
    - unfold mu_of at 2. cbn [fst snd]. rewrite Ed. apply (D_ext (fun x => u_b RA u + (rate j a None * d) * x)).
      { intros x. destruct (FX x) as (u' & -> & _ & _ & _ & ->). refine (_ : @eq R _ _). ring. }
      apply D_line.
  Qed.
  Lemma descent k : k ∈ map (u_id RA) (List.last net []) -> k ∉ lab ->
    exists r, 0 < r /\ forall lr, 0 < lr < r -> loss lab feats (path lr) < loss lab feats net.
  Proof using HL HK HP HR.
    intros Hk Nk. pose proof HL as (l' & El & NE & N1 & N2 & N3 & N4). subst l'.
    assert (HO : labels_on lab (map (u_id RA) (List.last net []))) by done.
    assert (M0 : map (fixed 0) mnet = net) by (by rewrite mnet_at, path_0).
    assert (MD : D (fun x => loss lab feats (path x)) 0 (- flow 0 lab feats mnet)).
    { apply (D_ext (fun x => objective 1 lab (logits (map (fixed x) mnet) feats))).
      { intros x. rewrite mnet_at. apply objective_1. }
      pose proof mnet_ok as OK. revert M0 OK. generalize mnet. intros [|ml mrest] M0 OK; [by subst net|].
      apply net_D; [by rewrite M0|by rewrite M0|exact OK]. }
    assert (FP : 0 < flow 0 lab feats mnet).
    { apply (flow_pos lab 0 mnet feats); rewrite M0; [|by apply (output_error lab net feats k)].
      intros j ml a mu c d Hml Hmu Hc Hd. unfold mnet in Hml. rewrite list_lookup_imap in Hml. destruct (net !! j) as [l|] eqn:Hj; [|done]. injection Hml as <-.
      rewrite list_lookup_imap in Hmu. destruct (l !! a) as [u|] eqn:Ha; [|done]. injection Hmu as <-.
      destruct (path_unit j l a u Hj Ha) as (c' & ds & d' & Hc' & Hds & Hd' & Ed & Ec & _). rewrite Hc in Hc'. injection Hc' as <-. rewrite Hds in Hd. assert (EQ : d' = d) by (assert (Some d' = Some d) as HE by (rewrite <- Hd', <- Hd; reflexivity); by injection HE). rewrite EQ in Ed.
      unfold unit_gain, mu_of. cbn [fst snd]. rewrite Ed, Ec.
      set (f := fun q => if decide (q < length (u_w RA u))%nat then rate j a (Some q) * (d * at_input c q) else 0).
      change (sum_of (map _ c)) with (sum_of (map (fun p : Z * R => f (Z.to_nat p.1) * p.2) c)).
      rewrite (sum_by_input f (length (u_w RA u)) c) by (intros q Hq; unfold f; destruct decide; [lia|done]).
      assert (S0 : 0 <= d * sum_of (map (fun q => f q * at_input c q) (seq 0 (length (u_w RA u))))).
      { rewrite <- sum_scale, map_map. apply sum_nonneg. intros q _. unfold f. destruct decide; [|lra].
        replace (d * (rate j a (Some q) * (d * at_input c q) * at_input c q)) with (rate j a (Some q) * (d * at_input c q) ^ 2) by ring.
        apply Rmult_le_pos; [left; apply HR|apply pow2_ge_0]. }
      set (SS := sum_of _) in *. pose proof (HR j a None) as R0.
      assert (E2 : d * (SS + rate j a None * d) = d * SS + rate j a None * d ^ 2) by ring. rewrite E2. pose proof (pow2_ge_0 d).
      split; [nra|]. intros NZ. assert (0 < d ^ 2) by (rewrite <- Rsqr_pow2; by apply Rsqr_pos_lt). nra. }
    destruct (neg_D _ _ MD ltac:(lra)) as (r & R0 & H). exists r. split; [done|]. intros lr Hlr. specialize (H lr Hlr). by rewrite path_0 in H.
  Qed.
End Down.
