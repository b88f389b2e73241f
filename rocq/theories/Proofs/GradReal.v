(** C77, over the reals: the backward pass gives the gradient of the cross-entropy. *)
From Coq Require Import Reals Lra Ranalysis5.
From stdpp Require Import list.
From Verif.Spec Require Import GradSpec.
Local Open Scope R_scope.

Notation RA := (reals 0).
Notation D := derivable_pt_lim.

(** * Sums *)
Lemma sum_cons x xs : sum_of (x :: xs) = x + sum_of xs.
Proof. reflexivity. Qed.
Lemma sum_nil : sum_of [] = 0.
Proof. reflexivity. Qed.
Lemma sum_app xs ys : sum_of (xs ++ ys) = sum_of xs + sum_of ys.
Proof. induction xs as [|x xs IH]; cbn [app]; [rewrite sum_nil; ring|]. rewrite !sum_cons, IH. ring. Qed.
Lemma fold_sum {X} (f : X -> R) xs : forall s, fold_left (fun s x => s + f x) xs s = s + sum_of (map f xs).
Proof. induction xs as [|x xs IH]; intros s; cbn [fold_left map]; [rewrite ?sum_nil; ring|]. rewrite IH, sum_cons. ring. Qed.
Lemma sum_scale c xs : sum_of (map (Rmult c) xs) = c * sum_of xs.
Proof. induction xs as [|x xs IH]; cbn [map]; [rewrite ?sum_nil; ring|]. rewrite !sum_cons, IH. ring. Qed.
Lemma sum_plus {X} (f g : X -> R) xs : sum_of (map (fun x => f x + g x) xs) = sum_of (map f xs) + sum_of (map g xs).
Proof. induction xs as [|x xs IH]; cbn [map]; [rewrite ?sum_nil; ring|]. rewrite !sum_cons, IH. ring. Qed.
Lemma sum_zero {X} (f : X -> R) xs : (forall x, x ∈ xs -> f x = 0) -> sum_of (map f xs) = 0.
Proof.
  induction xs as [|x xs IH]; intros H; cbn [map]; [reflexivity|]. rewrite sum_cons, H, IH; [ring| |left].
  intros y Hy. apply H. by right.
Qed.
Lemma sum_ext {X} (f g : X -> R) xs : (forall x, x ∈ xs -> f x = g x) -> sum_of (map f xs) = sum_of (map g xs).
Proof.
  induction xs as [|x xs IH]; intros H; cbn [map]; [reflexivity|]. rewrite !sum_cons, IH, H; [reflexivity|left|].
  intros y Hy. apply H. by right.
Qed.
Lemma sum_swap {X Y} (f : X -> Y -> R) xs ys :
  sum_of (map (fun x => sum_of (map (f x) ys)) xs) = sum_of (map (fun y => sum_of (map (fun x => f x y) xs)) ys).
Proof.
  induction xs as [|x xs IH]; cbn [map].
  - symmetry. apply sum_zero. reflexivity.
  - rewrite sum_cons, IH, <- sum_plus. apply sum_ext. intros y _. by rewrite sum_cons.
Qed.
Lemma sum_perm xs ys : xs ≡ₚ ys -> sum_of xs = sum_of ys.
Proof. induction 1; rewrite ?sum_cons; [reflexivity|by f_equal|ring|congruence]. Qed.
Lemma sum_pos {X} (f : X -> R) xs : (forall x, 0 < f x) -> xs <> [] -> 0 < sum_of (map f xs).
Proof.
  intros H. destruct xs as [|x xs]; [done|]. intros _. cbn [map]. rewrite sum_cons.
  assert (0 <= sum_of (map f xs)).
  { induction xs as [|y ys IH]; cbn [map]; [rewrite sum_nil; lra|]. rewrite sum_cons. pose proof (H y). lra. }
  pose proof (H x). lra.
Qed.

(** * Derivatives of lists of functions *)
Definition ev (fs : list (R -> R)) (x : R) : list R := map (fun f => f x) fs.
Definition ders (fs : list (R -> R)) (x : R) (ds : list R) : Prop := Forall2 (fun f d => D f x d) fs ds.
Lemma D_ext f g x l : (forall y, f y = g y) -> D f x l -> D g x l.
Proof. intros H Hf e He. destruct (Hf e He) as [d Hd]. exists d. intros h. rewrite <- !H. apply Hd. Qed.
Lemma D_const c x : D (fun _ => c) x 0.
Proof. apply derivable_pt_lim_const. Qed.
Lemma D_plus f g x a b : D f x a -> D g x b -> D (fun y => f y + g y) x (a + b).
Proof. apply derivable_pt_lim_plus. Qed.
Lemma D_scal c f x a : D f x a -> D (fun y => c * f y) x (c * a).
Proof. intros H. apply (derivable_pt_lim_scal f c x a H). Qed.
Lemma D_comp f g x a b : D f x a -> D g (f x) b -> D (fun y => g (f y)) x (b * a).
Proof. intros Hf Hg. exact (derivable_pt_lim_comp f g x a b Hf Hg). Qed.
Lemma D_sum fs x ds : ders fs x ds -> D (fun y => sum_of (ev fs y)) x (sum_of ds).
Proof.
  induction 1 as [|f d fs ds Hf _ IH]; [apply (D_ext (fun _ => 0)); [reflexivity|apply D_const]|]. cbn [ev map]. unfold sum_of in *. cbn [fold_right]. by apply (D_plus f).
Qed.
Lemma D_exp f x a : D f x a -> D (fun y => exp (f y)) x (exp (f x) * a).
Proof. intros H. apply (D_comp f exp); [exact H|]. apply derivable_pt_lim_exp. Qed.
Lemma D_ln f x a : D f x a -> 0 < f x -> D (fun y => ln (f y)) x (/ f x * a).
Proof. intros H P. apply (D_comp f ln); [exact H|]. by apply derivable_pt_lim_ln. Qed.
Definition reluR (x : R) : R := if Rlt_dec x 0 then 0 else x.
Definition gate (x : R) : R := if Rlt_dec x 0 then 0 else 1.
Lemma D_relu x : x <> 0 -> D reluR x (gate x).
Proof.
  intros H. unfold gate. destruct (Rlt_dec x 0) as [L|L].
  - apply (derivable_pt_lim_locally_ext (fun _ => 0) reluR x (x - 1) 0); [lra| |apply D_const].
    intros z Hz. unfold reluR. destruct (Rlt_dec z 0); lra.
  - apply (derivable_pt_lim_locally_ext id reluR x 0 (x + 1)); [lra| |apply derivable_pt_lim_id].
    intros z Hz. unfold reluR, id. destruct (Rlt_dec z 0); lra.
Qed.

(** * The passes, over the reals *)
Notation unitR := (unit_ RA).
Lemma relu_R z : relu RA z = reluR z.
Proof. unfold relu, reluR. cbn. destruct (Rlt_dec z 0); reflexivity. Qed.
Lemma pre_R (cur : signal RA) (u : unitR) :
  net_input RA cur u = sum_of (map (fun p : Z * R => weight RA u p.1 * p.2) cur) + u_b RA u.
Proof.
  unfold net_input. cbn [add zero reals mul num]. rewrite (fold_sum (fun p : Z * R => weight RA u p.1 * p.2)). change (num RA) with R. ring.
Qed.
(** Weighted sums of a layer, with the ids. *)
Definition pres (l : list unitR) (cur : signal RA) : list (Z * R) := map (fun u => (u_id RA u, net_input RA cur u)) l.
Definition relus (zs : list (Z * R)) : list (Z * R) := map (fun e => (e.1, reluR e.2)) zs.
Lemma zip_maps {X Y Z'} (f : X -> Y) (g : X -> Z') xs : zip (map f xs) (map g xs) = map (fun x => (f x, g x)) xs.
Proof. induction xs as [|x xs IH]; [reflexivity|]. cbn. by rewrite IH. Qed.
Lemma hidden_R l cur : relu_layer RA l cur = relus (pres l cur).
Proof.
  unfold relu_layer, relus, pres. rewrite !map_map, zip_maps. apply map_ext. intros u. by rewrite relu_R.
Qed.
Definition topR (zs : list (Z * R)) : R := top RA (map snd zs).
Definition exps_R (zs : list (Z * R)) : list (Z * R) := map (fun e => (e.1, exp (e.2 - topR zs))) zs.
Lemma last_R l cur : softmax_layer RA l cur = exps_R (pres l cur).
Proof.
  unfold softmax_layer, exps_R, exponentials, topR, pres. rewrite !map_map, zip_maps. cbn [fst snd]. reflexivity.
Qed.
Section Batch.
Context (bt : Z).
Definition errfn (lab : list Z) (zs : list (Z * R)) (rest : list (list unitR)) (e : Z * R) : R :=
  match rest with
  | [] => out_error RA bt lab (sum_of (map snd (exps_R zs))) (e.1, exp (e.2 - topR zs))
  | next :: _ => back_error RA (zip next (default [] (head (backward RA bt lab rest (relus zs))))) (e.1, reluR e.2)
  end.
Lemma backward_R lab l rest cur :
  backward RA bt lab (l :: rest) cur =
  map (errfn lab (pres l cur) rest) (pres l cur) :: match rest with [] => [] | _ => backward RA bt lab rest (relu_layer RA l cur) end.
Proof.
  destruct rest as [|next rest].
  - cbn [backward]. f_equal. rewrite last_R. unfold exps_R at 2. rewrite map_map. apply map_ext. intros e. unfold errfn.
    f_equal. unfold sum_of. cbn [add zero reals num]. rewrite <- fold_symmetric; [reflexivity|intros; ring|intros; ring].
  - change (backward RA bt lab (l :: next :: rest) cur) with
      (map (back_error RA (zip next (default [] (head (backward RA bt lab (next :: rest) (relu_layer RA l cur)))))) (relu_layer RA l cur)
       :: backward RA bt lab (next :: rest) (relu_layer RA l cur)).
    f_equal. rewrite hidden_R. unfold relus at 2. rewrite map_map. reflexivity.
Qed.
Definition tail_loss (lab : list Z) (zs : list (Z * R)) (rest : list (list unitR)) : R :=
  objective bt lab (match rest with [] => zs | _ => logits rest (relus zs) end).
Lemma logits_R lab l rest cur : objective bt lab (logits (l :: rest) cur) = tail_loss lab (pres l cur) rest.
Proof.
  destruct rest as [|next rest]; unfold tail_loss.
  - cbn [logits]. f_equal. unfold pres. apply zip_maps.
  - change (logits (l :: next :: rest) cur) with (logits (next :: rest) (relu_layer RA l cur)). by rewrite hidden_R.
Qed.

(** * Values that depend on a parameter: their id, the function and its derivative *)
Definition vals := list (Z * (R -> R) * R).
Definition at_x (tr : vals) (x : R) : list (Z * R) := map (fun t => (t.1.1, t.1.2 x)) tr.
Definition okD (x : R) (tr : vals) : Prop := Forall (fun t => D t.1.2 x t.2) tr.
Lemma D_sum_map {X} (f : X -> R -> R) (d : X -> R) x xs : (forall y, y ∈ xs -> D (f y) x (d y)) ->
  D (fun z => sum_of (map (fun y => f y z) xs)) x (sum_of (map d xs)).
Proof.
  induction xs as [|y ys IH]; intros H; [apply (D_ext (fun _ => 0)); [reflexivity|apply D_const]|].
  cbn [map]. rewrite sum_cons. apply (D_plus (f y)); [apply H; left|]. apply IH. intros z Hz. apply H. by right.
Qed.
(** The next layer's weighted sums. *)
Definition next_vals (x0 : R) (tr : vals) (l : list unitR) : vals :=
  map (fun u => (u_id RA u, (fun x => net_input RA (relus (at_x tr x)) u),
                 sum_of (map (fun t => weight RA u t.1.1 * (gate (t.1.2 x0) * t.2)) tr))) l.
Lemma next_at x0 tr l x : at_x (next_vals x0 tr l) x = pres l (relus (at_x tr x)).
Proof. unfold at_x, next_vals, pres. rewrite map_map. reflexivity. Qed.
Lemma next_ok x0 tr l : okD x0 tr -> Forall (fun t => t.1.2 x0 <> 0) tr -> okD x0 (next_vals x0 tr l).
Proof.
  intros H N. unfold okD in *. unfold next_vals. apply Forall_map, Forall_true. intros u. cbn [compose fst snd].
  eapply (D_ext (fun x => sum_of (map (fun t => weight RA u t.1.1 * reluR (t.1.2 x)) tr) + u_b RA u)).
  { intros x. rewrite pre_R. f_equal. unfold relus, at_x. rewrite !map_map. reflexivity. }
  replace (sum_of _) with (sum_of (map (fun t => weight RA u t.1.1 * (gate (t.1.2 x0) * t.2)) tr) + 0) by ring.
  apply (D_plus _ (fun _ => u_b RA u)); [|apply D_const].
  apply (D_sum_map (fun t x => weight RA u t.1.1 * reluR (t.1.2 x)) (fun t => weight RA u t.1.1 * (gate (t.1.2 x0) * t.2))).
  intros t Ht. rewrite Forall_forall in H, N. apply D_scal. apply (D_comp t.1.2 reluR); [by apply H|]. apply D_relu. by apply N.
Qed.

(** * The output layer *)
Definition labels_on (lab ids : list Z) : Prop := NoDup ids /\ NoDup lab /\ lab <> [] /\ forall t, t ∈ lab -> t ∈ ids.
Definition Zs (zs : list (Z * R)) : R := sum_of (map (fun p => exp p.2) zs).
Lemma filter_one (zs : list (Z * R)) p : NoDup (map fst zs) -> p ∈ zs -> filter (fun q : Z * R => q.1 = p.1) zs = [p].
Proof.
  induction zs as [|q zs IH]; intros N Hp; [by apply elem_of_nil in Hp|]. cbn in N. apply NoDup_cons in N as [N1 N2].
  apply elem_of_cons in Hp as [->|Hp].
  - rewrite filter_cons_True by reflexivity. f_equal. apply elem_of_nil_inv. intros y Hy%elem_of_list_filter.
    destruct Hy as [Hy1 Hy2]. apply N1. rewrite <- Hy1. by apply elem_of_list_fmap_1.
  - rewrite filter_cons_False; [by apply IH|]. intros Hq. apply N1. rewrite Hq. by apply elem_of_list_fmap_1.
Qed.
Lemma labels_perm lab ids : labels_on lab ids -> lab ≡ₚ filter (fun i => i ∈ lab) ids.
Proof.
  intros (N1 & N2 & _ & S). apply NoDup_Permutation; [done|by apply NoDup_filter|]. intros t. rewrite elem_of_list_filter. naive_solver.
Qed.
Lemma ce_R lab zs : labels_on lab (map fst zs) ->
  cross_entropy lab zs = ln (Zs zs) - sum_of (map (fun p : Z * R => if bool_decide (p.1 ∈ lab) then / INR (length lab) * p.2 else 0) zs).
Proof.
  intros HL. pose proof (labels_perm _ _ HL) as P. destruct HL as (N1 & N2 & NE & S0).
  assert (NZ : zs <> []). { intros ->. destruct lab as [|t lab]; [done|]. specialize (S0 t (elem_of_list_here _ _)). by apply elem_of_nil in S0. }
  assert (PZ : 0 < Zs zs) by (apply sum_pos; [intros; apply exp_pos|done]).
  assert (LN : INR (length lab) <> 0). { apply not_0_INR. destruct lab; [done|]. cbn. lia. }
  unfold cross_entropy.
  assert (E1 : sum_of (map (fun t => ln (probability zs t)) lab) =
               sum_of (map (fun p : Z * R => if bool_decide (p.1 ∈ lab) then p.2 - ln (Zs zs) else 0) zs)).
  { rewrite (sum_perm _ (map (fun t => ln (probability zs t)) (filter (fun i => i ∈ lab) (map fst zs)))) by (by apply Permutation_map).
    clear P S0 NZ. assert (X : forall ys : list (Z * R), (forall p, p ∈ ys -> p ∈ zs) ->
      sum_of (map (fun t => ln (probability zs t)) (filter (fun i => i ∈ lab) (map fst ys))) =
      sum_of (map (fun p : Z * R => if bool_decide (p.1 ∈ lab) then p.2 - ln (Zs zs) else 0) ys)); [|by apply X].
    induction ys as [|p ys IH]; intros Hy; [reflexivity|]. cbn [map]. rewrite sum_cons, <- IH by (intros q Hq; apply Hy; by right).
    destruct (decide (p.1 ∈ lab)) as [Hl|Hl].
    - rewrite filter_cons_True by done. rewrite bool_decide_true by done. cbn [map]. rewrite sum_cons. f_equal. unfold probability.
      rewrite (filter_one zs p) by (done || apply Hy; left). cbn [map]. rewrite sum_cons, sum_nil, Rplus_0_r. fold (Zs zs).
      unfold Rdiv. rewrite ln_mult, ln_exp, ln_Rinv; [ring|done|apply exp_pos|by apply Rinv_0_lt_compat].
    - rewrite filter_cons_False by done. rewrite bool_decide_false by done. ring. }
  rewrite E1. clear E1.
  assert (E2 : sum_of (map (fun p : Z * R => if bool_decide (p.1 ∈ lab) then p.2 - ln (Zs zs) else 0) zs) =
               sum_of (map (fun p : Z * R => if bool_decide (p.1 ∈ lab) then p.2 else 0) zs) - INR (length lab) * ln (Zs zs)).
  { rewrite (Permutation_length P). clear P S0 NZ. revert PZ. generalize (ln (Zs zs)). intros c _. clear N1.
    induction zs as [|p ys IH]; [cbn; ring|]. cbn [map]. rewrite !sum_cons, IH. destruct (decide (p.1 ∈ lab)) as [Hl|Hl].
    - rewrite !bool_decide_true by done. rewrite filter_cons_True by done. cbn [length]. rewrite S_INR. ring.
    - rewrite !bool_decide_false by done. rewrite filter_cons_False by done. ring. }
  rewrite E2. clear E2.
  assert (E3 : sum_of (map (fun p : Z * R => if bool_decide (p.1 ∈ lab) then / INR (length lab) * p.2 else 0) zs) =
               / INR (length lab) * sum_of (map (fun p : Z * R => if bool_decide (p.1 ∈ lab) then p.2 else 0) zs)).
  { rewrite <- sum_scale, map_map. apply sum_ext. intros p _. case_bool_decide; ring. }
  rewrite E3. field. exact LN.
Qed.
Lemma obj_R lab zs : labels_on lab (map fst zs) -> objective bt lab zs =
  / IZR bt * ln (Zs zs) - sum_of (map (fun p : Z * R => if bool_decide (p.1 ∈ lab) then / INR (length lab) * p.2 else 0) zs).
Proof. intros H. unfold objective. rewrite ce_R by done. fold (Zs zs). ring. Qed.
Lemma exps_sum zs c : sum_of (map (fun p : Z * R => exp (p.2 - c)) zs) = exp (- c) * Zs zs.
Proof. unfold Zs. rewrite <- sum_scale, map_map. apply sum_ext. intros p _. unfold Rminus. rewrite exp_plus. ring. Qed.
Lemma out_error_R lab zs e : zs <> [] ->
  out_error RA bt lab (sum_of (map snd (exps_R zs))) (e.1, exp (e.2 - topR zs)) =
  (if bool_decide (e.1 ∈ lab) then / INR (length lab) else 0) - exp e.2 / Zs zs / IZR bt.
Proof.
  intros NZ. assert (PZ : 0 < Zs zs) by (apply sum_pos; [intros; apply exp_pos|done]).
  assert (E1 : exp (e.2 - topR zs) / (sum_of (map snd (exps_R zs)) + 0) = exp e.2 / Zs zs).
  { unfold exps_R. rewrite map_map. cbn [snd]. rewrite (exps_sum zs (topR zs)). unfold Rminus. rewrite exp_plus.
    field. split; [lra|]. pose proof (exp_pos (- topR zs)). lra. }
  unfold out_error. cbn [fst snd div add tiny reals neg sub one int num]. rewrite E1. rewrite <- INR_IZR_INZ.
  unfold Rdiv. case_bool_decide; ring.
Qed.
Lemma out_D lab tr x0 : labels_on lab (map (fun t => t.1.1) tr) -> okD x0 tr ->
  D (fun x => objective bt lab (at_x tr x)) x0 (- sum_of (map (fun t => errfn lab (at_x tr x0) [] (t.1.1, t.1.2 x0) * t.2) tr)).
Proof.
  intros HL H. unfold okD in H. rewrite Forall_forall in H.
  assert (NT : tr <> []). { destruct HL as (_ & _ & NE & S0). intros ->. destruct lab as [|t lab]; [done|]. specialize (S0 t (elem_of_list_here _ _)). by apply elem_of_nil in S0. }
  assert (NZ : forall x, at_x tr x <> []) by (intros x; unfold at_x; by destruct tr).
  assert (PZ : forall x, 0 < Zs (at_x tr x)) by (intros; apply sum_pos; [intros; apply exp_pos|apply NZ]).
  assert (IDS : forall x, map fst (at_x tr x) = map (fun t => t.1.1) tr) by (intros; unfold at_x; by rewrite map_map).
  apply (D_ext (fun x => / IZR bt * ln (Zs (at_x tr x)) +
     -1 * sum_of (map (fun t : Z * (R -> R) * R => (if bool_decide (t.1.1 ∈ lab) then / INR (length lab) else 0) * t.1.2 x) tr))).
  { intros x. symmetry. rewrite (obj_R lab (at_x tr x)) by (by rewrite IDS). unfold Rminus. f_equal.
    match goal with |- - ?a = _ => replace (- a) with (-1 * a) by ring end. do 2 f_equal. unfold at_x. rewrite map_map. apply map_ext. intros t. cbn [fst snd].
    case_bool_decide; ring. }
  set (es := fun t : Z * (R -> R) * R => exp (t.1.2 x0) * t.2).
  replace (- sum_of _) with (/ IZR bt * (/ Zs (at_x tr x0) * sum_of (map es tr)) +
     -1 * sum_of (map (fun t : Z * (R -> R) * R => (if bool_decide (t.1.1 ∈ lab) then / INR (length lab) else 0) * t.2) tr)).
  - apply (D_plus (fun x => / IZR bt * ln (Zs (at_x tr x)))).
    + apply D_scal. apply (D_ln (fun x => Zs (at_x tr x))); [|apply PZ].
      apply (D_ext (fun x => sum_of (map (fun t : Z * (R -> R) * R => exp (t.1.2 x)) tr))).
      { intros x. unfold Zs, at_x. by rewrite map_map. }
      apply (D_sum_map (fun t x => exp (t.1.2 x)) es). intros t Ht. apply D_exp. by apply H.
    + apply D_scal. apply (D_sum_map (fun t x => _ * t.1.2 x) (fun t => _ * t.2)). intros t Ht. apply D_scal. by apply H.
  - rewrite <- Rmult_assoc, <- sum_scale. rewrite <- (sum_scale (-1)). match goal with |- _ = - ?a => replace (- a) with (-1 * a) by ring end. rewrite <- (sum_scale (-1)). rewrite !map_map. rewrite <- sum_plus. apply sum_ext. intros t _. unfold errfn.
    rewrite (out_error_R lab (at_x tr x0) (t.1.1, t.1.2 x0)) by apply NZ. cbn [fst snd]. unfold es, Rdiv. ring.
Qed.

(** * Through the hidden layers *)
Definition last_ids (ids : list Z) (rest : list (list unitR)) : list Z := match rest with [] => ids | _ => map (u_id RA) (List.last rest []) end.
Definition clear (zs : list (Z * R)) (rest : list (list unitR)) : Prop :=
  match rest with [] => True | _ => Forall (fun e : Z * R => e.2 <> 0) zs /\ off_kink rest (relus zs) end.
Lemma back_error_R (next : list unitR) (g : unitR -> R) e :
  e.2 <> 0 -> back_error RA (map (fun u => (u, g u)) next) (e.1, reluR e.2) = gate e.2 * sum_of (map (fun u => g u * weight RA u e.1) next).
Proof.
  intros N. unfold back_error. cbn [fst snd le reals zero add mul num].
  assert (X : fold_left (fun acc '(u, d) => acc + d * weight RA u e.1) (map (fun u => (u, g u)) next) 0 = sum_of (map (fun u => g u * weight RA u e.1) next)).
  { assert (Y : forall s, fold_left (fun (acc : R) '(u, d) => acc + d * weight RA u e.1) (map (fun u => (u, g u)) next) s = s + sum_of (map (fun u => g u * weight RA u e.1) next)); [|rewrite Y; ring].
    induction next as [|u us IH]; intros s; cbn [map fold_left]; [rewrite sum_nil; ring|]. rewrite IH, sum_cons. ring. }
  unfold gate, reluR. destruct (Rlt_dec e.2 0) as [L|L].
  - destruct (Rle_dec 0 0); [ring|lra].
  - destruct (Rle_dec e.2 0); [lra|]. rewrite X. ring.
Qed.
Lemma main_D lab rest : forall tr x0, labels_on lab (last_ids (map (fun t => t.1.1) tr) rest) -> okD x0 tr -> clear (at_x tr x0) rest ->
  D (fun x => tail_loss lab (at_x tr x) rest) x0 (- sum_of (map (fun t => errfn lab (at_x tr x0) rest (t.1.1, t.1.2 x0) * t.2) tr)).
Proof.
  induction rest as [|next rest IH]; intros tr x0 HL H C.
  - by apply out_D.
  - destruct C as [N C]. assert (N' : Forall (fun t => t.1.2 x0 <> 0) tr) by (unfold at_x in N; rewrite Forall_map in N; exact N).
    pose proof (next_ok x0 tr next H N') as H2.
    specialize (IH (next_vals x0 tr next) x0). rewrite next_at in IH.
    assert (HL2 : labels_on lab (last_ids (map (fun t => t.1.1) (next_vals x0 tr next)) rest)).
    { unfold next_vals. rewrite map_map. cbn [fst]. destruct rest; exact HL. }
    assert (C2 : clear (pres next (relus (at_x tr x0))) rest).
    { destruct rest as [|l2 rest]; [done|]. cbn [off_kink] in C. destruct C as [C1 C2]. split; [|by rewrite <- hidden_R].
      unfold pres. rewrite Forall_map. exact C1. }
    specialize (IH HL2 H2 C2).
    apply (D_ext (fun x => tail_loss lab (at_x (next_vals x0 tr next) x) rest)).
    { intros x. rewrite next_at. unfold tail_loss at 2. by rewrite <- logits_R. }
    replace (- sum_of (map (fun t => errfn lab (at_x tr x0) (next :: rest) _ * _) tr)) with
      (- sum_of (map (fun t => errfn lab (pres next (relus (at_x tr x0))) rest (t.1.1, t.1.2 x0) * t.2) (next_vals x0 tr next))); [exact IH|].
    f_equal. unfold next_vals. rewrite map_map. cbn [fst snd].
    set (cur := relus (at_x tr x0)). set (g := fun u : unitR => errfn lab (pres next cur) rest (u_id RA u, net_input RA cur u)).
    rewrite (sum_ext _ (fun u => sum_of (map (fun t : Z * (R -> R) * R => g u * weight RA u t.1.1 * (gate (t.1.2 x0) * t.2)) tr))).
    2:{ intros u _. fold (g u). rewrite <- sum_scale, map_map. apply sum_ext. intros t _.
      unfold g. symmetry. apply Rmult_assoc. }
    rewrite sum_swap. apply sum_ext. intros t Ht. unfold errfn. fold cur. rewrite backward_R. cbn [head default].
    assert (B : map (errfn lab (pres next cur) rest) (pres next cur) = map g next) by (unfold pres at 2; by rewrite map_map).
    assert (B2 : zip next (map g next) = map (fun u => (u, g u)) next) by (rewrite <- (map_id next) at 1; by rewrite zip_maps).
    replace (zip next _) with (map (fun u => (u, g u)) next) by (rewrite <- B2; f_equal; symmetry; exact B).
    rewrite Forall_forall in N'. rewrite (back_error_R next g (t.1.1, t.1.2 x0)) by (by apply N'). cbn [fst snd].
    rewrite Rmult_assoc, (Rmult_comm (sum_of _)), <- Rmult_assoc, <- sum_scale, map_map. apply sum_ext. intros u _. ring.
Qed.

(** * One node of one layer changes *)
Lemma layer_D lab rest l cur a u (F : R -> unitR) x0 :
  l !! a = Some u -> F x0 = u -> (forall x, u_id RA (F x) = u_id RA u) ->
  labels_on lab (last_ids (map (u_id RA) l) rest) -> off_kink (l :: rest) cur ->
  exists d, map (errfn lab (pres l cur) rest) (pres l cur) !! a = Some d /\
    forall dc, D (fun x => net_input RA cur (F x)) x0 dc ->
      D (fun x => objective bt lab (logits (<[a := F x]> l :: rest) cur)) x0 (- (d * dc)).
Proof.
  intros Ha HF HI HL HK.
  exists (errfn lab (pres l cur) rest (u_id RA u, net_input RA cur u)). split.
  { unfold pres at 2. rewrite map_map. rewrite list_lookup_fmap, Ha. reflexivity. }
  intros dc Hdc. apply elem_of_list_split_length in Ha as (l1 & l2 & -> & ->).
  set (c0 := map (fun v : unitR => (u_id RA v, (fun _ : R => net_input RA cur v), 0))).
  set (tr := (c0 l1 ++ (u_id RA u, (fun x => net_input RA cur (F x)), dc) :: c0 l2) : vals).
  assert (INS : forall x, <[length l1 := F x]> (l1 ++ u :: l2) = l1 ++ F x :: l2).
  { intros x. rewrite insert_app_r_alt, Nat.sub_diag by lia. reflexivity. }
  assert (AT : forall x, at_x tr x = pres (l1 ++ F x :: l2) cur).
  { intros x. unfold at_x, tr, pres, c0. rewrite !map_app. cbn [map]. rewrite !map_map. cbn [fst snd]. by rewrite HI. }
  assert (AT0 : at_x tr x0 = pres (l1 ++ u :: l2) cur) by (by rewrite AT, HF).
  assert (IDS : map (fun t => t.1.1) tr = map (u_id RA) (l1 ++ u :: l2)).
  { unfold tr, c0. rewrite !map_app. cbn [map]. rewrite !map_map. reflexivity. }
  assert (OK : okD x0 tr).
  { unfold okD, tr. apply Forall_app. unfold c0. split; [|constructor; [exact Hdc|]]; rewrite Forall_map; apply Forall_true; intros v; apply (D_const (net_input RA cur v)). }
  pose proof (main_D lab rest tr x0) as M. rewrite IDS, AT0 in M.
  assert (CL : clear (pres (l1 ++ u :: l2) cur) rest).
  { destruct rest as [|l' rest]; [done|]. cbn [off_kink] in HK. destruct HK as [K1 K2]. split; [|by rewrite <- hidden_R].
    unfold pres. rewrite Forall_map. exact K1. }
  specialize (M HL OK CL).
  apply (D_ext (fun x => tail_loss lab (at_x tr x) rest)).
  { intros x. rewrite AT, INS. symmetry. apply logits_R. }
  replace (- (_ * dc)) with (- sum_of (map (fun t => errfn lab (pres (l1 ++ u :: l2) cur) rest (t.1.1, t.1.2 x0) * t.2) tr)); [exact M|].
  f_equal. unfold tr, c0. rewrite !map_app. cbn [map]. rewrite !map_map, sum_app, sum_cons. cbn [fst snd].
  rewrite HF.
  rewrite (sum_zero _ l1), (sum_zero _ l2); [|intros v _; apply Rmult_0_r..].
  rewrite Rplus_0_l, Rplus_0_r. reflexivity.
Qed.
Lemma param_D lab net : forall j cur l a u (F : R -> unitR) x0,
  net !! j = Some l -> l !! a = Some u -> F x0 = u -> (forall x, u_id RA (F x) = u_id RA u) ->
  labels_on lab (map (u_id RA) (List.last net [])) -> off_kink net cur ->
  exists c ds d, forward RA net cur !! j = Some c /\ backward RA bt lab net cur !! j = Some ds /\ ds !! a = Some d /\
    forall dc, D (fun x => net_input RA c (F x)) x0 dc ->
      D (fun x => objective bt lab (logits (<[j := <[a := F x]> l]> net) cur)) x0 (- (d * dc)).
Proof.
  induction net as [|l0 rest IH]; intros j cur l a u F x0 Hj Ha HF HI HL HK; [done|].
  destruct j as [|j].
  - injection Hj as ->. exists cur, (map (errfn lab (pres l cur) rest) (pres l cur)).
    assert (HL' : labels_on lab (last_ids (map (u_id RA) l) rest)) by (destruct rest; exact HL).
    destruct (layer_D lab rest l cur a u F x0 Ha HF HI HL' HK) as (d & Hd & H). exists d.
    split; [reflexivity|]. split; [by rewrite backward_R|]. split; [exact Hd|]. intros dc Hdc. exact (H dc Hdc).
  - destruct rest as [|l1 rest]; [done|].
    assert (HL' : labels_on lab (map (u_id RA) (List.last (l1 :: rest) []))) by exact HL.
    cbn [off_kink] in HK. destruct HK as [_ HK].
    destruct (IH j (relu_layer RA l0 cur) l a u F x0 Hj Ha HF HI HL' HK) as (c & ds & d & Hc & Hds & Hd & H).
    exists c, ds, d. split; [exact Hc|]. split; [exact Hds|]. split; [exact Hd|].
    intros dc Hdc. specialize (H dc Hdc). revert H. apply D_ext. intros x. cbn [insert list_insert]. 
    destruct j as [|j]; reflexivity.
Qed.

(** * Weights and biases *)
Lemma filter_sum (c : list (Z * R)) q :
  sum_of (map (fun p : Z * R => if decide (Z.to_nat p.1 = q) then p.2 else 0) c) = sum_of (map snd (filter (fun p : Z * R => Z.to_nat p.1 = q) c)).
Proof.
  induction c as [|p c IH]; [reflexivity|]. cbn [map]. rewrite sum_cons, IH. destruct (decide (Z.to_nat p.1 = q)) as [E|N].
  - rewrite filter_cons_True by exact E. reflexivity.
  - rewrite filter_cons_False by exact N. ring.
Qed.
Lemma net_input_weight (c : signal RA) (u : unitR) q w0 : u_w RA u !! q = Some w0 ->
  D (fun x => net_input RA c (u_id RA u, <[q := x]> (u_w RA u), u_b RA u)) w0
    (sum_of (map snd (filter (fun p : Z * R => Z.to_nat p.1 = q) c))).
Proof.
  intros Hw. apply (D_ext (fun x => sum_of (map (fun p : Z * R => if decide (Z.to_nat p.1 = q) then p.2 * x else weight RA u p.1 * p.2) c) + u_b RA u)).
  { intros x. rewrite pre_R. f_equal. apply sum_ext. intros p _. unfold weight. cbn [u_w fst snd].
    destruct (decide (Z.to_nat p.1 = q)) as [->|N].
    - rewrite list_lookup_insert by (by eapply lookup_lt_Some). cbn. ring.
    - by rewrite list_lookup_insert_ne by done. }
  replace (sum_of (map snd _)) with (sum_of (map (fun p : Z * R => if decide (Z.to_nat p.1 = q) then p.2 else 0) c) + 0).
  - apply (D_plus _ (fun _ => u_b RA u)); [|apply D_const].
    apply (D_sum_map (fun (p : Z * R) x => if decide (Z.to_nat p.1 = q) then p.2 * x else weight RA u p.1 * p.2)
             (fun p => if decide (Z.to_nat p.1 = q) then p.2 else 0)).
    intros p _. destruct (decide (Z.to_nat p.1 = q)); [|apply D_const].
    pose proof (D_scal p.2 (fun x => x) w0 1 (derivable_pt_lim_id w0)) as K. rewrite Rmult_1_r in K. exact K.
  - rewrite Rplus_0_r. apply filter_sum.
Qed.
Lemma net_input_bias (c : signal RA) (u : unitR) b0 : D (fun x => net_input RA c (u_id RA u, u_w RA u, x)) b0 1.
Proof.
  apply (D_ext (fun x => sum_of (map (fun p : Z * R => weight RA u p.1 * p.2) c) + x)).
  { intros x. by rewrite pre_R. }
  replace 1 with (0 + 1) by ring. apply (D_plus (fun _ => _) (fun x => x)); [apply D_const|apply derivable_pt_lim_id].
Qed.
Lemma stepped_list lr d (c : list (Z * R)) : forall (w : list R) q w0, w !! q = Some w0 ->
  fold_left (fun w (p : Z * R) => alter (fun x => x + lr * (d * p.2)) (Z.to_nat p.1) w) c w !! q =
    Some (w0 + lr * (d * sum_of (map snd (filter (fun p : Z * R => Z.to_nat p.1 = q) c)))).
Proof.
  induction c as [|p c IH]; intros w q w0 Hw; cbn [fold_left].
  - rewrite Hw. f_equal. cbn. ring.
  - destruct (decide (Z.to_nat p.1 = q)) as [E|N].
    + rewrite (IH _ q (w0 + lr * (d * p.2))) by (subst q; rewrite list_lookup_alter, Hw; reflexivity).
      rewrite filter_cons_True by exact E. cbn [map]. rewrite sum_cons. f_equal. ring.
    + rewrite (IH _ q w0) by (by rewrite list_lookup_alter_ne). by rewrite filter_cons_False by exact N.
Qed.
Lemma stepped_R lr d (c : signal RA) w q w0 : w !! q = Some w0 ->
  stepped RA lr d c w !! q = Some (w0 + lr * (d * sum_of (map snd (filter (fun p : Z * R => Z.to_nat p.1 = q) c)))).
Proof. apply stepped_list. Qed.
Lemma alter_is_insert {X} (f : X -> X) (l : list X) : forall (i : nat) x, l !! i = Some x -> alter f i l = <[i := f x]> l.
Proof. induction l as [|y l IH]; intros [|i] x H; [done..|by injection H as ->|]. cbn in *. f_equal. by apply IH. Qed.
Lemma gradient_batch lab net feats j l a u : labels_active lab net -> off_kink net feats -> net !! j = Some l -> l !! a = Some u ->
  exists c ds d, forward RA net feats !! j = Some c /\ backward RA bt lab net feats !! j = Some ds /\ ds !! a = Some d /\
    (forall q w0, u_w RA u !! q = Some w0 -> exists g, D (fun x => batch_loss bt lab feats (set_weight j a q x net)) w0 g /\
       forall lr, stepped RA lr d c (u_w RA u) !! q = Some (w0 - lr * g)) /\
    D (fun x => batch_loss bt lab feats (set_bias j a x net)) (u_b RA u) (- d).
Proof.
  intros (l' & <- & NE & N1 & N2 & N3 & N4) HK Hj Ha.
  assert (HL : labels_on lab (map (u_id RA) (List.last net []))) by done.
  destruct (param_D lab net j feats l a u (fun _ => u) 0 Hj Ha eq_refl (fun _ => eq_refl) HL HK) as (c & ds & d & Hc & Hds & Hd & _).
  exists c, ds, d. split; [exact Hc|]. split; [exact Hds|]. split; [exact Hd|].
  assert (U : forall (F : unitR -> unitR), alter (alter F a) j net = <[j := <[a := F u]> l]> net).
  { intros F. rewrite (alter_is_insert _ net j l) by done. by rewrite (alter_is_insert _ l a u). }
  split.
  - intros q w0 Hw. set (F := fun x : R => (u_id RA u, <[q := x]> (u_w RA u), u_b RA u) : unitR).
    assert (HF : F w0 = u). { unfold F. rewrite list_insert_id by exact Hw. by destruct u as [[? ?] ?]. }
    destruct (param_D lab net j feats l a u F w0 Hj Ha HF (fun _ => eq_refl) HL HK) as (c' & ds' & d' & Hc' & Hds' & Hd' & H).
    rewrite Hc in Hc'. injection Hc' as <-. rewrite Hds in Hds'. injection Hds' as <-. rewrite Hd in Hd'. injection Hd' as <-.
    specialize (H _ (net_input_weight c u q w0 Hw)). eexists. split.
    + refine (D_ext _ _ _ _ _ H). intros x. unfold batch_loss, set_weight. by rewrite U.
    + intros lr. rewrite (stepped_R lr d c _ q w0 Hw). f_equal. ring.
  - set (F := fun x : R => (u_id RA u, u_w RA u, x) : unitR).
    assert (HF : F (u_b RA u) = u) by (by destruct u as [[? ?] ?]).
    destruct (param_D lab net j feats l a u F (u_b RA u) Hj Ha HF (fun _ => eq_refl) HL HK) as (c' & ds' & d' & Hc' & Hds' & Hd' & H).
    rewrite Hc in Hc'. injection Hc' as <-. rewrite Hds in Hds'. injection Hds' as <-. rewrite Hd in Hd'. injection Hd' as <-.
    specialize (H _ (net_input_bias c u _)). replace (- d) with (- (d * 1)) by ring. refine (D_ext _ _ _ _ _ H). intros x. unfold batch_loss, set_bias. by rewrite U.
Qed.

End Batch.
Lemma objective_1 lab zs : objective 1 lab zs = cross_entropy lab zs.
Proof. unfold objective. rewrite Rinv_1. ring. Qed.
Lemma gradient_real lab net feats j l a u : labels_active lab net -> off_kink net feats -> net !! j = Some l -> l !! a = Some u ->
  exists c ds d, forward RA net feats !! j = Some c /\ backward RA 1 lab net feats !! j = Some ds /\ ds !! a = Some d /\
    (forall q w0, u_w RA u !! q = Some w0 -> exists g, D (fun x => loss lab feats (set_weight j a q x net)) w0 g /\
       forall lr, stepped RA lr d c (u_w RA u) !! q = Some (w0 - lr * g)) /\
    D (fun x => loss lab feats (set_bias j a x net)) (u_b RA u) (- d).
Proof.
  intros HL HK Hj Ha. destruct (gradient_batch 1 lab net feats j l a u HL HK Hj Ha) as (c & ds & d & Hc & Hds & Hd & HW & HB).
  exists c, ds, d. split; [exact Hc|]. split; [exact Hds|]. split; [exact Hd|]. split.
  - intros q w0 Hq. destruct (HW q w0 Hq) as (g & Hg & Hs). exists g. split; [|exact Hs].
    refine (D_ext _ _ _ _ _ Hg). intros x. unfold batch_loss, loss. apply objective_1.
  - refine (D_ext _ _ _ _ _ HB). intros x. unfold batch_loss, loss. apply objective_1.
Qed.

(** * Raising all the output biases *)
Lemma raise_cons c l0 l1 rest : raise c (l0 :: l1 :: rest) = l0 :: raise c (l1 :: rest).
Proof. reflexivity. Qed.
Lemma logits_raise c : forall net cur, logits (raise c net) cur = map (fun p => (p.1, p.2 + c)) (logits net cur).
Proof.
  induction net as [|l0 [|l1 rest] IH]; intros cur; [reflexivity| |].
  - unfold raise. cbn [length Nat.pred alter list_alter logits]. rewrite !map_map, !zip_maps, map_map. apply map_ext. intros u.
    cbn [fst snd]. f_equal. rewrite !pre_R. cbn [u_b u_w u_id fst snd]. unfold weight. cbn [u_w fst snd]. change (num RA) with R. ring.
  - rewrite raise_cons. specialize (IH (relu_layer RA l0 cur)).
    change (logits (l0 :: l1 :: rest) cur) with (logits (l1 :: rest) (relu_layer RA l0 cur)). rewrite <- IH.
    unfold raise. cbn [length Nat.pred]. destruct rest as [|l2 rest]; reflexivity.
Qed.
Lemma logits_ids : forall net cur, net <> [] -> map fst (logits net cur) = map (u_id RA) (List.last net []).
Proof.
  induction net as [|l0 [|l1 rest] IH]; intros cur N; [done| |].
  - cbn [logits List.last]. rewrite zip_maps, map_map. reflexivity.
  - change (logits (l0 :: l1 :: rest) cur) with (logits (l1 :: rest) (relu_layer RA l0 cur)). rewrite IH by done. reflexivity.
Qed.
Definition shift (c : R) (zs : list (Z * R)) : list (Z * R) := map (fun p => (p.1, p.2 + c)) zs.
Lemma exps_shift c zs : sum_of (map (fun p => exp p.2) (shift c zs)) = exp c * sum_of (map (fun p => exp p.2) zs).
Proof. unfold shift. rewrite map_map, <- sum_scale, map_map. apply sum_ext. intros p _. cbn [snd]. rewrite exp_plus. ring. Qed.
Lemma filter_shift c t zs : filter (fun p : Z * R => p.1 = t) (shift c zs) = shift c (filter (fun p : Z * R => p.1 = t) zs).
Proof.
  induction zs as [|p zs IH]; [reflexivity|]. unfold shift in *. cbn [map]. destruct (decide (p.1 = t)) as [H|H].
  - rewrite !filter_cons_True by done. cbn [map]. by rewrite IH.
  - rewrite !filter_cons_False by done. exact IH.
Qed.
Lemma objective_raise bt lab zs c : zs <> [] -> objective bt lab (shift c zs) = objective bt lab zs - (1 - / IZR bt) * c.
Proof.
  intros N. assert (PZ : 0 < Zs zs) by (apply sum_pos; [intros; apply exp_pos|done]). unfold Zs in PZ.
  unfold objective. rewrite exps_shift. rewrite ln_mult, ln_exp by (done || apply exp_pos).
  assert (E : cross_entropy lab (shift c zs) = cross_entropy lab zs).
  { unfold cross_entropy. f_equal. apply sum_ext. intros t _. f_equal. unfold probability. rewrite filter_shift, !exps_shift.
    pose proof (exp_pos c). field. split; lra. }
  rewrite E. ring.
Qed.
Lemma batch_unbounded bt lab net feats bound : labels_active lab net -> (2 <= bt)%Z ->
  exists c, batch_loss bt lab feats (raise c net) < bound.
Proof.
  intros (l & <- & NE & N1 & N2 & N3 & N4) HB.
  assert (NZ : logits net feats <> []).
  { intros H. pose proof (logits_ids net feats NE) as I. rewrite H in I. rewrite <- I in N4. destruct lab as [|t lab]; [done|].
    specialize (N4 t (elem_of_list_here _ _)). by apply elem_of_nil in N4. }
  set (k := 1 - / IZR bt).
  assert (K : 0 < k). { apply (IZR_le 2) in HB. assert (/ IZR bt <= / 2) by (apply Rinv_le_contravar; lra). unfold k. lra. }
  exists ((batch_loss bt lab feats net - bound + 1) / k). unfold batch_loss. rewrite logits_raise. fold (shift ((objective bt lab (logits net feats) - bound + 1) / k) (logits net feats)). rewrite objective_raise by exact NZ.
  fold k. replace (k * _) with (objective bt lab (logits net feats) - bound + 1) by (field; lra). lra.
Qed.
Lemma loss_bounded lab net feats : labels_active lab net -> 0 <= loss lab feats net.
Proof.
  intros (l & <- & NE & N1 & N2 & N3 & N4). pose proof (logits_ids net feats NE) as I. rewrite <- I in N1, N4.
  unfold loss, cross_entropy. set (zs := logits net feats) in *.
  assert (L0 : 0 < INR (length lab)). { apply lt_0_INR. destruct lab; [done|]. cbn. lia. }
  assert (S0 : sum_of (map (fun t => ln (probability zs t)) lab) <= 0).
  { assert (X : forall t, t ∈ lab -> ln (probability zs t) <= 0).
    { intros t Ht. specialize (N4 t Ht). apply elem_of_list_fmap in N4 as (p & -> & Hp). unfold probability. rewrite (filter_one zs p) by done.
      cbn [map]. rewrite sum_cons, sum_nil, Rplus_0_r.
      assert (G : exp p.2 <= sum_of (map (fun p : Z * R => exp p.2) zs)).
      { clear -Hp. induction zs as [|q zs IH]; [by apply elem_of_nil in Hp|]. cbn [map]. rewrite sum_cons. apply elem_of_cons in Hp as [->|Hp].
        - assert (0 <= sum_of (map (fun p : Z * R => exp p.2) zs)); [|lra]. clear. induction zs as [|q' zs IH]; cbn [map]; [rewrite sum_nil; lra|]. rewrite sum_cons. pose proof (exp_pos q'.2). lra.
        - specialize (IH Hp). pose proof (exp_pos q.2). lra. }
      pose proof (exp_pos p.2) as EP. rewrite <- ln_1. set (s := sum_of _) in *.
      assert (Q : 0 < exp p.2 / s <= 1). { split; [apply Rdiv_lt_0_compat; lra|]. apply (Rmult_le_reg_r s); [lra|]. unfold Rdiv. rewrite Rmult_assoc, Rinv_l by lra. lra. }
      destruct Q as [Q1 [Q2|Q2]]; [left; by apply ln_increasing|rewrite Q2; lra]. }
    clear -X. induction lab as [|t lab IH]; [cbn [map]; rewrite sum_nil; lra|]. cbn [map]. rewrite sum_cons.
    pose proof (X t (elem_of_list_here _ _)). assert (sum_of (map (fun t => ln (probability zs t)) lab) <= 0); [|lra]. apply IH. intros t' Ht'. apply X. by right. }
  assert (0 < / INR (length lab)) by (by apply Rinv_0_lt_compat). nra.
Qed.

(** * The small constant *)
Definition expsum (eps : R) (zs : list R) : R := fold_left Rplus (exponentials (reals eps) zs) 0.
Lemma topR_ge eps zs : forall mx, mx <= fold_left (fun mx z => if lt (reals eps) mx z then z else mx) zs mx /\
  forall z, z ∈ zs -> z <= fold_left (fun mx z => if lt (reals eps) mx z then z else mx) zs mx.
Proof.
  induction zs as [|y zs IH]; intros mx; cbn [fold_left].
  - split; [lra|]. intros z Hz. by apply elem_of_nil in Hz.
  - cbn [lt reals]. destruct (Rlt_dec mx y) as [L|L].
    + destruct (IH y) as [I1 I2]. split; [cbn [lt reals] in I1; lra|]. intros z [->|Hz]%elem_of_cons; [exact I1|by apply I2].
    + destruct (IH mx) as [I1 I2]. split; [exact I1|]. intros z [->|Hz]%elem_of_cons; [cbn [lt reals] in I1; lra|by apply I2].
Qed.
Lemma topR_in eps zs : forall mx, (fold_left (fun mx z => if lt (reals eps) mx z then z else mx) zs mx = mx) \/
  fold_left (fun mx z => if lt (reals eps) mx z then z else mx) zs mx ∈ zs.
Proof.
  induction zs as [|y zs IH]; intros mx; cbn [fold_left]; [by left|].
  destruct (IH (if lt (reals eps) mx y then y else mx)) as [->|H]; [|right; by right].
  destruct (lt (reals eps) mx y); [right; left|by left].
Qed.
Lemma exps_ge zs c z : z ∈ zs -> exp (z - c) <= sum_of (map (fun y => exp (y - c)) zs).
Proof.
  induction zs as [|y zs IH]; intros H; [by apply elem_of_nil in H|]. cbn [map]. rewrite sum_cons.
  assert (P : 0 <= sum_of (map (fun y => exp (y - c)) zs)).
  { clear. induction zs as [|y zs IH]; cbn [map]; [rewrite sum_nil; lra|]. rewrite sum_cons. pose proof (exp_pos (y - c)). lra. }
  apply elem_of_cons in H as [->|H]; [lra|]. specialize (IH H). pose proof (exp_pos (y - c)). lra.
Qed.
Lemma expsum_R eps zs : expsum eps zs = sum_of (map (fun y => exp (y - top (reals eps) zs)) zs).
Proof.
  unfold expsum, exponentials. cbn [exp_ sub reals num]. unfold sum_of.
  rewrite fold_symmetric; [reflexivity|intros; ring|intros; ring].
Qed.
Lemma eps_small eps batch lab zs i z : 0 <= eps -> (1 <= batch)%Z -> z ∈ zs -> (exists z', z' ∈ zs /\ 0 <= z') ->
  let p := (i, exp (z - top (reals eps) zs)) in
  Rabs (out_error (reals eps) batch lab (expsum eps zs) p - out_error (reals 0) batch lab (expsum eps zs) p) <= eps.
Proof.
  intros He Hb Hz (z' & Hz' & Pz) p. rewrite expsum_R. set (c := top (reals eps) zs). set (S0 := sum_of (map (fun y => exp (y - c)) zs)).
  assert (HS : 1 <= S0).
  { destruct (topR_in eps zs 0) as [E|E]; fold (top (reals eps) zs) in E; fold c in E.
    - assert (z' = 0). { pose proof (proj2 (topR_ge eps zs 0) z' Hz') as G. change (z' <= c) in G. change (c = 0) in E. lra. }
      subst z'. pose proof (exps_ge zs c 0 Hz') as G. change (c = 0) in E. rewrite E, Rminus_0_r, exp_0 in G. unfold S0. rewrite E. exact G.
    - pose proof (exps_ge zs c c E) as G. rewrite Rminus_diag_eq, exp_0 in G by reflexivity. exact G. }
  assert (Hp : 0 < exp (z - c) <= S0) by (split; [apply exp_pos|by apply exps_ge]).
  assert (HB : 1 <= IZR batch) by (by apply IZR_le).
  unfold out_error. cbn [p fst snd div add tiny reals neg sub one int num]. rewrite Rplus_0_r.
  set (e := exp (z - c)) in *.
  assert (HD : 0 <= e / S0 - e / (S0 + eps) <= eps).
  { assert (E : e / S0 - e / (S0 + eps) = (e / S0) * (eps / (S0 + eps))) by (field; lra). rewrite E.
    assert (0 <= e / S0 <= 1). { split; [apply Rle_mult_inv_pos; lra|]. apply (Rmult_le_reg_r S0); [lra|]. unfold Rdiv. rewrite Rmult_assoc, Rinv_l by lra. lra. }
    assert (0 <= eps / (S0 + eps) <= eps).
    { split; [apply Rle_mult_inv_pos; lra|]. apply (Rmult_le_reg_r (S0 + eps)); [lra|]. unfold Rdiv. rewrite Rmult_assoc, Rinv_l by lra. nra. }
    nra. }
  set (d := e / S0 - e / (S0 + eps)) in *.
  assert (HQ : 0 <= d / IZR batch <= eps).
  { split; [apply Rle_mult_inv_pos; lra|]. apply (Rmult_le_reg_r (IZR batch)); [lra|]. unfold Rdiv. rewrite Rmult_assoc, Rinv_l by lra. nra. }
  change (exp (z - top (reals eps) zs)) with e. generalize (1 / IZR (Z.of_nat (length lab))). intros t.
  case_bool_decide.
  - match goal with |- Rabs ?x <= _ => replace x with (d / IZR batch) by (unfold d; field; repeat split; lra) end. rewrite Rabs_right; lra.
  - match goal with |- Rabs ?x <= _ => replace x with (d / IZR batch) by (unfold d; field; repeat split; lra) end. rewrite Rabs_right; lra.
Qed.
Lemma exp_40 : exp (-40) < / 10000000.
Proof.
  assert (H : 2 <= exp 1) by (pose proof (exp_ineq1 1); lra).
  assert (P : forall n, 2 ^ n <= exp (INR n)).
  { induction n as [|n IH]; [cbn; rewrite exp_0; lra|]. rewrite S_INR, exp_plus. cbn [Rpow_def.pow]. pose proof (pow_lt 2 n ltac:(lra)). nra. }
  specialize (P 40%nat). rewrite INR_IZR_INZ in P. change (IZR (Z.of_nat 40)) with 40 in P.
  replace (-40) with (- (40)) by lra. rewrite exp_Ropp. apply Rinv_lt_contravar; [|].
  - apply Rmult_lt_0_compat; [lra|apply exp_pos].
  - eapply Rlt_le_trans; [|exact P]. cbn [Rpow_def.pow]. lra.
Qed.
Lemma negative_bad : ~ forall lab zs i z, z ∈ zs -> let eps := / 10000000 in let p := (i, exp (z - top (reals eps) zs)) in
  Rabs (out_error (reals eps) 1 lab (expsum eps zs) p - out_error (reals 0) 1 lab (expsum eps zs) p) <= / 2.
Proof.
  intros H. specialize (H [] [-40] 0%Z (-40) (elem_of_list_here _ _)). cbv zeta in H. revert H. rewrite expsum_R.
  assert (T : top (reals (/ 10000000)) [-40] = 0).
  { unfold top. cbn [fold_left lt reals zero num]. destruct (Rlt_dec 0 (-40)); [lra|reflexivity]. }
  rewrite T. cbn [map]. rewrite sum_cons, sum_nil, Rplus_0_r, Rminus_0_r. pose proof exp_40 as L. pose proof (exp_pos (-40)) as P. revert L P.
  generalize (exp (-40)). intros e L P H. unfold out_error in H. cbn [fst snd div add tiny reals neg sub one int num] in H.
  rewrite bool_decide_false in H by (by intros ?%elem_of_nil).
  assert (E : - (e / (e + / 10000000)) / 1 - - (e / (e + 0)) / 1 = (/ 10000000) / (e + / 10000000)) by (field; lra).
  rewrite E in H. assert (B : / 2 < / 10000000 / (e + / 10000000)).
  { apply (Rmult_lt_reg_r (e + / 10000000)); [lra|]. unfold Rdiv. rewrite Rmult_assoc, Rinv_l by lra. lra. }
  rewrite Rabs_right in H by lra. lra.
Qed.
Lemma batch_bad : ~ forall batch lab net feats, labels_active lab net -> off_kink net feats -> (1 <= batch)%Z ->
  backward RA batch lab net feats = map (map (fun d => d / IZR batch)) (backward RA 1 lab net feats).
Proof.
  intros H. specialize (H 2%Z [0%Z] [[(0%Z, [], 0)]] []). cbv [labels_active off_kink] in H.
  assert (X : backward RA 2 [0%Z] [[(0%Z, [], 0)]] [] = map (map (fun d => d / 2)) (backward RA 1 [0%Z] [[(0%Z, [], 0)]] [])).
  { apply H; [|done|lia]. eexists. split; [reflexivity|]. split; [done|]. cbn. repeat split; [apply NoDup_singleton..|done|done]. }
  clear H. set (u := (0%Z, [], 0) : unitR) in X. set (z := net_input RA [] u). set (e := exp (z - top RA [z])).
  assert (B : forall b, backward RA b [0%Z] [[u]] [] = [[out_error RA b [0%Z] (0 + e) (0%Z, e)]]) by reflexivity.
  rewrite !B in X. cbn [map] in X. injection X as X. revert X.
  assert (P : 0 < e) by apply exp_pos. revert P. generalize e. clear. intros e P.
  unfold out_error. cbn [fst snd div add tiny reals neg sub one int num length]. rewrite !bool_decide_true by (left).
  change (IZR (Z.of_nat 1)) with 1. replace (0 + e + 0) with e by ring. replace (e / e) with 1 by (field; lra). lra.
Qed.
