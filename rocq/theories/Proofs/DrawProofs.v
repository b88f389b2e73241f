(** The nodes that LayerMode2 adds are a fair sample of the nodes that are not labels. *)
From Verif.Spec Require Import DrawSpec.
From Verif.Proofs Require Import LayerModes SelectProofs BiasCount BiasSets BiasProofs FillProofs.
Local Open Scope Z_scope.

(** * All sequences of draws; all arrangements *)
Lemma in_all_draws n k : forall ds, ds ∈ all_draws n k <-> length ds = k /\ forall d, d ∈ ds -> d ∈ seqZ 0 n.
Proof.
  induction k as [|k IH]; intros ds; cbn [all_draws].
  - rewrite elem_of_list_singleton. split; [intros ->; split; [done|]; by intros d ?%elem_of_nil|].
    intros [H _]. by apply nil_length_inv.
  - rewrite elem_of_list_In, in_flat_map. split.
    + intros (d & Hd & H). apply elem_of_list_In in H. apply elem_of_list_fmap in H as (ds' & -> & H).
      apply IH in H as [L H]. split; [cbn; lia|]. intros x. rewrite elem_of_cons. intros [->|Hx]; [by apply elem_of_list_In|by apply H].
    + destruct ds as [|d ds']; [by intros [? _]|]. intros [L H]. exists d. split; [apply elem_of_list_In, H; left|].
      apply elem_of_list_In, elem_of_list_fmap. exists ds'. split; [done|]. apply IH. split; [cbn in L; lia|]. intros x Hx. apply H. by right.
Qed.
Lemma flat_cons_NoDup (F : Z -> list (list Z)) l : NoDup l -> (forall x, NoDup (F x)) -> NoDup (flat_map (fun x => map (cons x) (F x)) l).
Proof.
  intros ND HF. induction ND as [|x l Hx ND IH]; [constructor|]. cbn [flat_map]. apply NoDup_app. split_and!.
  - apply NoDup_fmap_2; [|done]. intros a b [=]. done.
  - intros y Hy Hy'. apply elem_of_list_fmap in Hy as (y1 & -> & _). apply elem_of_list_In, in_flat_map in Hy' as (x' & Hx' & H).
    apply elem_of_list_In, elem_of_list_fmap in H as (y2 & [= <- _] & _). by apply Hx, elem_of_list_In.
  - done.
Qed.
Lemma all_draws_NoDup n k : NoDup (all_draws n k).
Proof.
  induction k as [|k IH]; [apply NoDup_singleton|]. cbn [all_draws]. apply (flat_cons_NoDup (fun _ => all_draws n k)); [apply NoDup_seqZ|done].
Qed.
Lemma in_arrangements k : forall l r, r ∈ arrangements k l <-> length r = k /\ NoDup r /\ forall x, x ∈ r -> x ∈ l.
Proof.
  induction k as [|k IH]; intros l r; cbn [arrangements].
  - rewrite elem_of_list_singleton. split; [intros ->; split_and!; [done|constructor|]; by intros d ?%elem_of_nil|].
    intros [H _]. by apply nil_length_inv.
  - rewrite elem_of_list_In, in_flat_map. split.
    + intros (d & Hd & H). apply elem_of_list_In in H, Hd. apply elem_of_list_fmap in H as (r' & -> & H).
      apply IH in H as (L & ND & H). split_and!; [cbn; lia| |].
      * constructor; [|done]. intros Hx. apply H, elem_of_list_filter in Hx as [? _]. done.
      * intros x. rewrite elem_of_cons. intros [->|Hx]; [done|]. by apply H, elem_of_list_filter in Hx as [_ ?].
    + destruct r as [|d r']; [by intros [? _]|]. intros (L & ND & H). apply NoDup_cons in ND as [Hd ND]. exists d. split; [apply elem_of_list_In, H; left|].
      apply elem_of_list_In, elem_of_list_fmap. exists r'. split; [done|]. apply IH. split_and!; [cbn in L; lia|done|].
      intros x Hx. apply elem_of_list_filter. split; [by intros ->|]. apply H. by right.
Qed.
Lemma arrangements_NoDup k : forall l, NoDup l -> NoDup (arrangements k l).
Proof.
  induction k as [|k IH]; intros l ND; [apply NoDup_singleton|]. cbn [arrangements].
  apply flat_cons_NoDup; [done|]. intros x. by apply IH, NoDup_filter.
Qed.

(** * Relabelling *)
Section Pick.
  Context (n : Z) (cand : list Z) (os : list (list Z)) (T k : nat) (pick : list Z -> list Z).
  Let ot := others n cand.
  Context (ND : NoDup os) (HT : forall o, o ∈ os -> length o = T /\ forall x, x ∈ o -> x ∈ seqZ 0 n)
    (HP : forall o, o ∈ os -> NoDup (pick o) /\ length (pick o) = k /\ forall j, j ∈ pick o -> j ∈ ot)
    (HQ : forall f : Z -> Z, map f (seqZ 0 n) ≡ₚ seqZ 0 n -> (forall x, x ∈ seqZ 0 n -> x ∈ cand <-> f x ∈ cand) ->
       forall o, o ∈ os -> map f o ∈ os /\ pick (map f o) = map f (pick o)).
  Lemma exchange s s' : NoDup s -> NoDup s' -> (forall x, x ∈ s -> x ∈ ot) -> (forall x, x ∈ s' -> x ∈ ot) -> length s = length s' ->
    exists f : Z -> Z, map f s = s' /\ map f (seqZ 0 n) ≡ₚ seqZ 0 n /\ (forall x, x ∈ seqZ 0 n -> x ∈ cand <-> f x ∈ cand).
  Proof using.
    intros N1 N2 S1 S2 L. set (ins := filter (fun j => j ∈ cand) (seqZ 0 n)).
    destruct (submseteq_Permutation s ot) as [q Hq]; [by apply NoDup_submseteq|].
    destruct (submseteq_Permutation s' ot) as [q' Hq']; [by apply NoDup_submseteq|].
    assert (HA : ins ++ ot ≡ₚ seqZ 0 n) by (apply filter_split).
    set (from := ins ++ s ++ q). set (to := ins ++ s' ++ q').
    assert (Hr : from ≡ₚ seqZ 0 n) by (unfold from; by rewrite <- Hq).
    assert (Hr' : to ≡ₚ seqZ 0 n) by (unfold to; by rewrite <- Hq').
    assert (NF : NoDup from) by (rewrite Hr; apply NoDup_seqZ).
    assert (LF : length from = length to) by (by rewrite (Permutation_length Hr), (Permutation_length Hr')).
    pose proof (rename_map from to NF LF) as M0. pose proof M0 as M. unfold from at 2 in M. unfold to at 2 in M. rewrite !map_app in M.
    apply app_inj_1 in M as [MI M]; [|by rewrite map_length].
    apply app_inj_1 in M as [MS MQ]; [|by rewrite map_length].
    exists (rename from to). split; [done|]. split; [rewrite <- Hr at 1; rewrite M0; exact Hr'|].
    intros x Hx. rewrite <- HA in Hx. apply elem_of_app in Hx as [Hx|Hx].
    - assert (rename from to x ∈ cand); [|apply elem_of_list_filter in Hx as [Hx _]; tauto].
      assert (HI : rename from to x ∈ ins) by (rewrite <- MI; by apply elem_of_list_fmap_1). by apply elem_of_list_filter in HI as [HI _].
    - assert (HI : rename from to x ∈ ot).
      { rewrite Hq', <- MS, <- MQ, <- map_app. apply elem_of_list_fmap_1. by rewrite <- Hq. }
      unfold ot, others in Hx, HI. apply elem_of_list_filter in HI as [HI _]. apply elem_of_list_filter in Hx as [Hx _]. tauto.
  Qed.
  Lemma bij_inj (f : Z -> Z) x y : map f (seqZ 0 n) ≡ₚ seqZ 0 n -> x ∈ seqZ 0 n -> y ∈ seqZ 0 n -> f x = f y -> x = y.
  Proof using.
    intros HB Hx Hy E. assert (NM : NoDup (map f (seqZ 0 n))) by (rewrite HB; apply NoDup_seqZ).
    apply elem_of_list_lookup in Hx as [i Hi], Hy as [j Hj].
    assert (i = j) as ->; [|congruence]. eapply (NoDup_lookup _ i j (f x) NM); rewrite list_lookup_fmap; [by rewrite Hi|by rewrite Hj, E].
  Qed.
  Lemma map_inj (f : Z -> Z) o o' : map f (seqZ 0 n) ≡ₚ seqZ 0 n -> o ∈ os -> o' ∈ os -> map f o = map f o' -> o = o'.
  Proof using HT.
    clear HP HQ. clear pick. intros HB Ho Ho' EQ. destruct (HT o Ho) as [L R], (HT o' Ho') as [L' R'].
    apply list_eq_same_length with (n := length o); [lia|done|].
    intros i x y _ Hx Hy. apply (bij_inj f); [done|apply R|apply R'|]; [by eapply elem_of_list_lookup_2..|].
    assert (E2 : map f o !! i = map f o' !! i) by (by rewrite EQ). rewrite !list_lookup_fmap, Hx, Hy in E2. by injection E2.
  Qed.
  Lemma pick_le s s' : s ∈ arrangements k ot -> s' ∈ arrangements k ot ->
    (count (fun o => bool_decide (pick o = s)) os <= count (fun o => bool_decide (pick o = s')) os)%nat.
  Proof using ND HT HQ.
    clear HP. intros (L & N1 & S1)%in_arrangements (L' & N2 & S2)%in_arrangements.
    destruct (exchange s s' N1 N2 S1 S2 ltac:(lia)) as (f & MS & HB & HC). apply (count_le (map f)); [done| |].
    - intros o Ho HX. apply bool_decide_eq_true in HX. destruct (HQ f HB HC o Ho) as [H1 H2]. split; [done|].
      apply bool_decide_eq_true. by rewrite H2, HX.
    - intros o o' Ho Ho' _ _. by apply map_inj.
  Qed.
  Lemma pick_fair s : s ∈ arrangements k ot ->
    (count (fun o => bool_decide (pick o = s)) os * length (arrangements k ot) = length os)%nat.
  Proof using ND HT HP HQ.
    intros Hs. rewrite (count_group pick (arrangements k ot) os).
    - symmetry. apply nsum_const. intros s' Hs'. apply Nat.le_antisymm; by apply pick_le.
    - apply arrangements_NoDup, NoDup_filter, NoDup_seqZ.
    - intros o Ho. apply in_arrangements. destruct (HP o Ho) as (? & ? & ?). done.
  Qed.
  Lemma pick_node_le j j' : j ∈ ot -> j' ∈ ot ->
    (count (fun o => bool_decide (j ∈ pick o)) os <= count (fun o => bool_decide (j' ∈ pick o)) os)%nat.
  Proof using ND HT HQ.
    intros Hj Hj'. destruct (exchange [j] [j']) as (f & MS & HB & HC);
      [apply NoDup_singleton|apply NoDup_singleton|by intros x ->%elem_of_list_singleton|by intros x ->%elem_of_list_singleton|done|].
    injection MS as <-. apply (count_le (map f)); [done| |].
    - intros o Ho HX. apply bool_decide_eq_true in HX. destruct (HQ f HB HC o Ho) as [H1 H2]. split; [done|].
      apply bool_decide_eq_true. rewrite H2. by apply elem_of_list_fmap_1.
    - intros o o' Ho Ho' _ _. by apply map_inj.
  Qed.
  Lemma pick_nodes (xs : list (list Z)) : (forall o, o ∈ xs -> o ∈ os) ->
    nsum (map (fun j => count (fun o => bool_decide (j ∈ pick o)) xs) ot) = (k * length xs)%nat.
  Proof using HP.
    clear HQ HT. induction xs as [|o xs IH]; intros HI; [rewrite nsum_zero by done; cbn; lia|].
    assert (E : map (fun j => count (fun o0 => bool_decide (j ∈ pick o0)) (o :: xs)) ot =
      map (fun j => (if decide (j ∈ pick o) then 1 else 0) + count (fun o0 => bool_decide (j ∈ pick o0)) xs)%nat ot).
    { apply map_ext. intros j. unfold count. rewrite filter_cons. destruct (decide (j ∈ pick o)) as [E|E].
      - rewrite decide_True by (by apply bool_decide_eq_true). reflexivity.
      - rewrite decide_False by (rewrite bool_decide_eq_true; done). reflexivity. }
    rewrite E, nsum_plus, IH by (intros; apply HI; by right). cbn [length].
    destruct (HP o) as (N1 & L1 & S1); [apply HI; left|].
    enough (nsum (map (fun j => if decide (j ∈ pick o) then 1%nat else 0%nat) ot) = k) by lia.
    rewrite <- L1. transitivity (length (filter (fun j => j ∈ pick o) ot)).
    - clear. induction ot as [|x l IH]; [done|]. cbn [map nsum fold_right]. rewrite filter_cons.
      fold (nsum (map (fun j => if decide (j ∈ pick o) then 1%nat else 0%nat) l)). rewrite IH. destruct (decide _); done.
    - apply Permutation_length, NoDup_Permutation; [apply NoDup_filter, NoDup_filter, NoDup_seqZ|done|].
      intros x. rewrite elem_of_list_filter. split; [tauto|]. intros Hx. split; [done|]. by apply S1.
  Qed.
  Lemma pick_node_fair j : j ∈ ot -> (count (fun o => bool_decide (j ∈ pick o)) os * length ot = k * length os)%nat.
  Proof using ND HT HP HQ.
    intros Hj. rewrite <- (pick_nodes os) by done. symmetry. apply nsum_const. intros j' Hj'. apply Nat.le_antisymm; by apply pick_node_le.
  Qed.
End Pick.

(** * The draws LayerMode2 makes *)
Lemma firsts_ext ds : forall s s', (forall x, x ∈ s <-> x ∈ s') -> firsts s ds = firsts s' ds.
Proof.
  induction ds as [|d ds IH]; intros s s' H; [done|]. cbn [firsts]. destruct (decide (d ∈ s)) as [Hd|Hd].
  - rewrite decide_True by (by apply H). by apply IH.
  - rewrite decide_False by (by rewrite <- H). f_equal. apply IH. intros x. rewrite !elem_of_cons, H. done.
Qed.
Lemma firsts_in ds : forall s x, x ∈ firsts s ds -> x ∈ ds /\ x ∉ s.
Proof.
  induction ds as [|d ds IH]; intros s x; cbn [firsts]; [by intros ?%elem_of_nil|]. destruct (decide (d ∈ s)) as [Hd|Hd].
  - intros [H1 H2]%IH. split; [by right|done].
  - rewrite elem_of_cons. intros [->|[H1 H2]%IH]; [split; [left|done]|]. split; [by right|]. intros Hx. apply H2. by right.
Qed.
Lemma firsts_NoDup ds : forall s, NoDup (firsts s ds).
Proof.
  induction ds as [|d ds IH]; intros s; cbn [firsts]; [constructor|]. case_decide; [apply IH|]. constructor; [|apply IH].
  intros [_ Hx]%firsts_in. apply Hx. left.
Qed.
Lemma firsts_map n (f : Z -> Z) ds : map f (seqZ 0 n) ≡ₚ seqZ 0 n -> forall s s', (forall x, x ∈ seqZ 0 n -> x ∈ s <-> f x ∈ s') ->
  (forall x, x ∈ ds -> x ∈ seqZ 0 n) -> firsts s' (map f ds) = map f (firsts s ds).
Proof.
  intros HB. induction ds as [|d ds IH]; intros s s' H HR; [done|]. cbn [map firsts].
  assert (Hd : d ∈ seqZ 0 n) by (apply HR; left). destruct (decide (d ∈ s)) as [Hs|Hs].
  - rewrite decide_True by (by apply H). apply IH; [done|]. intros x Hx. apply HR. by right.
  - rewrite decide_False by (by rewrite <- H). cbn [map]. f_equal. apply IH; [|intros x Hx; apply HR; by right].
    intros x Hx. rewrite !elem_of_cons, (H x Hx). split; [intros [->|?]; tauto|]. intros [E|?]; [|tauto]. left. by eapply bij_inj.
Qed.
Lemma mode2_fill_firsts fuel N n : forall ds xs active bs g a g',
  mode2_fill fuel N (Z.of_nat n) active bs (Z.of_nat (length xs)) g = Ok (a, g') ->
  m2_active n xs active -> m2_marks xs bs ->
  (forall k d, ds !! k = Some d -> rstream g (rpos g + k) mod N = d) -> (n - length xs <= length (firsts xs ds))%nat ->
  a = map pair0 (xs ++ take (n - length xs) (firsts xs ds)).
Proof.
  induction fuel as [|fuel IH]; intros ds xs active bs g a g'; cbn [mode2_fill];
    (destruct (Z.ltb_spec (Z.of_nat (length xs)) (Z.of_nat n)) as [Hlt|Hge]; [|
      intros [= <- <-] [-> Hle] _ _ _; replace (n - length xs)%nat with 0%nat by lia; rewrite take_0; done]); [done|].
  unfold rand_intn. destruct (Z.leb_spec N 0) as [|HN0]; [done|]. cbn [mbind res_bind].
  destruct (draw_below N g) as [v g1] eqn:Eg. unfold draw_below, draw in Eg. injection Eg as Ev <-.
  destruct (sget bs v) as [b|] eqn:Eb; cbn [mbind res_bind]; [|done].
  apply sget_Ok in Eb as [Hv Eb]. intros H HA HM HD HF.
  destruct ds as [|d ds]; [cbn in HF; lia|].
  assert (v = d) as <-. { rewrite <- Ev. specialize (HD 0%nat d eq_refl). by rewrite Nat.add_0_r in HD. }
  assert (HD' : forall k d, ds !! k = Some d -> rstream g (S (rpos g) + k) mod N = d).
  { intros k d Hk. replace (S (rpos g) + k)%nat with (rpos g + S k)%nat by lia. by apply (HD (S k)). }
  pose proof (HM _ _ Eb) as Hm. rewrite Z2Nat.id in Hm by lia. cbn [firsts] in HF |- *.
  destruct b; cbn [negb] in H.
  - rewrite decide_True in HF |- * by (by apply Hm). by eapply IH.
  - assert (Hn : v ∉ xs) by (intros Hx; by apply Hm in Hx).
    rewrite decide_False in HF |- * by done. cbn [length] in HF.
    destruct (sset active _ _) as [active'|] eqn:Ea; cbn [mbind res_bind] in H; [|done].
    destruct (sset bs v true) as [bs'|] eqn:Eb'; cbn [mbind res_bind] in H; [|done].
    replace (Z.of_nat (length xs) + 1) with (Z.of_nat (length (xs ++ [v]))) in H by (rewrite app_length; cbn; lia).
    assert (EX : firsts (v :: xs) ds = firsts (xs ++ [v]) ds) by (apply firsts_ext; intros x; set_solver).
    assert (LX : length (xs ++ [v]) = S (length xs)) by (rewrite app_length; cbn; lia).
    rewrite (IH ds _ _ _ _ _ _ H); [|by eapply m2_put|by eapply m2_mark|done|rewrite <- EX, LX; lia].
    rewrite <- app_assoc, LX, EX. replace (n - length xs)%nat with (S (n - S (length xs))) by lia. done.
Qed.
Lemma select_mode2_firsts fuel N sparsity label g a g' ds : let n := int_floor (fmul (f_of_Z N) sparsity) in
  select_mode2 fuel N sparsity label g = Ok (a, g') ->
  (forall k d, ds !! k = Some d -> rstream g (rpos g + k) mod N = d) ->
  (Z.to_nat (n - Z.of_nat (length label)) <= length (firsts label ds))%nat ->
  a = map pair0 (label ++ take (Z.to_nat (n - Z.of_nat (length label))) (firsts label ds)).
Proof.
  intros n0. unfold select_mode2. generalize mapLen. intros ML.
  destruct (make_slice (pair0 0) _) as [act|] eqn:E1; cbn [mbind res_bind]; [|done].
  apply make_slice_inv in E1 as [Hn ->].
  destruct (make_slice false ML) as [bs|] eqn:E2; cbn [mbind res_bind]; [|done].
  apply make_slice_inv in E2 as [HM ->]. fold n0 in Hn |- *. generalize dependent n0. intros n Hn.
  destruct (foldM _ _ (indexed label)) as [[act1 bs1]|] eqn:E3; cbn [mbind res_bind]; [|done].
  intros H HD HF.
  assert (m2_active (Z.to_nat n) label act1 /\ m2_marks label bs1) as [HA HB].
  { eapply (foldM_Ok_prefix (fun pre '(act, bs) => forall ys, pre = indexed ys -> m2_active (Z.to_nat n) ys act /\ m2_marks ys bs)) in E3;
      [by apply E3| |].
    - intros [|y ys] Hys; [|apply (f_equal length) in Hys; rewrite indexed_length in Hys; cbn in Hys; lia].
      split.
      + split; [|cbn; lia]. cbn [app length]. rewrite Nat.sub_0_r. symmetry. apply fmap_replicate.
      + intros j b [-> _]%lookup_replicate. split; [done|]. by intros ?%elem_of_nil.
    - intros pre [i x] [act bs] [act' bs'] HI Hp.
      destruct (prefix_indexed _ _ _ _ Hp) as (-> & ys & -> & _).
      destruct (sset act _ _) as [a1|] eqn:Ea; cbn [mbind res_bind]; [|done].
      destruct (sset bs x true) as [b1|] eqn:Eb; cbn [mbind res_bind]; [|done]. intros [= <- <-].
      intros zs Hzs. destruct (HI ys eq_refl) as [HA HB].
      assert (zs = ys ++ [x]) as ->.
      { rewrite indexed_length in Hzs. rewrite <- indexed_snoc in Hzs.
        assert (forall (A : Type) (l : list A), map snd (indexed l) = l) as Hsnd.
        { intros A l. unfold indexed. apply snd_zip. rewrite seqZ_length. lia. }
        apply (f_equal (map snd)) in Hzs. by rewrite !Hsnd in Hzs. }
      rewrite indexed_length in Ea. split; [by eapply m2_put|by eapply m2_mark]. }
  replace n with (Z.of_nat (Z.to_nat n)) in H by lia.
  replace (Z.to_nat (n - Z.of_nat (length label))) with (Z.to_nat n - length label)%nat in * by lia.
  eapply mode2_fill_firsts; eassumption.
Qed.

(** * The query *)
Lemma filter_all {A} (P : A -> Prop) `{forall x, Decision (P x)} (xs : list A) : (forall x, x ∈ xs -> P x) -> filter P xs = xs.
Proof.
  induction xs as [|x xs IH]; intros HX; [done|]. rewrite filter_cons, decide_True by (apply HX; left). f_equal. apply IH. intros y Hy. apply HX. by right.
Qed.
Lemma filter_not_in (l xs : list Z) : (forall x, x ∈ xs -> x ∈ l) -> filter (fun j => j ∉ l) xs = [].
Proof.
  induction xs as [|x xs IH]; intros HX; [done|]. rewrite filter_cons, decide_False by (intros Hn; apply Hn, HX; left). apply IH. intros y Hy. apply HX. by right.
Qed.
Section Query.
  Context (E : env) (cowId : Z) (lp : nat) (anpl : list (list Pair)) (li inputId : Z) (label : list Z) (sp : float64) (m : mem) (la : Layer) (ns : list nat) (T : nat)
    (Hla : m_layer m !! lp = Some la) (Hns : m_na m !! l_nodes la = Some ns)
    (HM : e_Mode E = LayerMode2) (Hsp : feqb sp fone = false) (Hsm : is_softmax (l_type la) = true).
  Let N := Z.of_nat (length ns).
  Let need := Z.to_nat (target_size ns sp - Z.of_nat (length label)).
  Let draws := filter (fun ds => (need <= length (firsts label ds))%nat) (all_draws N T).
  Context (HR : forall ds, ds ∈ draws -> exists r, layer_Query E cowId lp anpl li inputId label sp (with_draws m ds) = Ok r).
  Let go ds := added label li (layer_Query E cowId lp anpl li inputId label sp (with_draws m ds)).
  Lemma added_firsts ds : ds ∈ draws -> go ds = Some (take need (firsts label ds)).
  Proof using All.
    intros Hd. destruct (HR ds Hd) as [[[[in_ anpl'] l'] m'] H]. unfold go. rewrite H. cbn [added]. f_equal.
    apply elem_of_list_filter in Hd as [Hen Hd]. apply in_all_draws in Hd as [_ Hrng].
    destruct (LayerProofs.query_inv _ _ _ _ _ _ _ _ (with_draws m ds) _ _ _ _ la ns Hla Hns H)
      as (cur0 & sel & m1 & m2 & Hc & HS & Hsel & Hact & _ & _ & _).
    unfold layer_select in Hsel. rewrite Hsp, HM, Hsm in Hsel.
    apply bindM_inv in Hsel as (a & mx & Ha & Hsel). injection Hsel as <- <- <-.
    assert (Eg : m_rng m1 = m_rng (with_draws m ds)) by (destruct HS as [_ HS]; rewrite HS; done). cbn [with_draws upd_rng m_rng] in Eg.
    unfold with_rng in Ha. destruct (select_mode2 _ _ _ _ (m_rng m1)) as [[v g]|] eqn:Es; [|done]. injection Ha as -> _.
    rewrite Eg in Es.
    apply (select_mode2_firsts _ _ _ _ _ _ _ ds) in Es; [|
      intros k d Hk; cbn; rewrite decide_False by lia; replace (_ - _)%nat with k by lia; rewrite Hk; cbn;
      apply Z.mod_small; apply elem_of_list_lookup_2, Hrng, elem_of_seqZ in Hk; unfold N in Hk; lia|exact Hen].
    rewrite Hact, Es, map_pair0. fold N. change (int_floor (fmul (f_of_Z N) sp)) with (target_size ns sp). fold need.
    rewrite filter_app, filter_not_in, filter_all; [done| |done].
    intros x Hx. apply elem_of_take in Hx as (i & Hi & _). apply elem_of_list_lookup_2 in Hi. by apply firsts_in in Hi as [_ Hi].
  Qed.
  Lemma draws_ok ds : ds ∈ draws -> length ds = T /\ forall x, x ∈ ds -> x ∈ seqZ 0 N.
  Proof using. intros [_ Hd]%elem_of_list_filter. by apply in_all_draws. Qed.
  Lemma draws_pick ds : ds ∈ draws -> NoDup (take need (firsts label ds)) /\ length (take need (firsts label ds)) = need /\
    forall j, j ∈ take need (firsts label ds) -> j ∈ others N label.
  Proof using.
    intros Hd. pose proof (draws_ok ds Hd) as [_ HX]. apply elem_of_list_filter in Hd as [Hen _]. split_and!.
    - pose proof (firsts_NoDup ds label) as H. rewrite <- (take_drop need (firsts label ds)) in H. by apply NoDup_app in H as [H _].
    - rewrite take_length. by apply Nat.min_l.
    - intros x Hx. apply elem_of_take in Hx as (i & Hi & _). apply elem_of_list_lookup_2 in Hi. apply firsts_in in Hi as [H1 H2].
      apply elem_of_list_filter. split; [done|by apply HX].
  Qed.
  Lemma draws_map (f : Z -> Z) : map f (seqZ 0 N) ≡ₚ seqZ 0 N -> (forall x, x ∈ seqZ 0 N -> x ∈ label <-> f x ∈ label) ->
    forall ds, ds ∈ draws -> map f ds ∈ draws /\ take need (firsts label (map f ds)) = map f (take need (firsts label ds)).
  Proof using.
    intros HB HC ds Hd. pose proof (draws_ok ds Hd) as [HL HX]. apply elem_of_list_filter in Hd as [Hen _].
    rewrite (firsts_map N f ds HB label label HC HX). split; [|by rewrite firstn_map]. apply elem_of_list_filter. split.
    - rewrite (firsts_map N f ds HB label label HC HX), map_length. done.
    - apply in_all_draws. split; [by rewrite map_length|]. intros x Hx. apply elem_of_list_fmap in Hx as (y & -> & Hy).
      rewrite <- HB. apply elem_of_list_fmap_1. by apply HX.
  Qed.
  Lemma random_fair s : s ∈ arrangements need (others N label) ->
    (length (filter (fun ds => go ds = Some s) draws) * length (arrangements need (others N label)) = length draws)%nat.
  Proof using All.
    intros Hs. rewrite <- (pick_fair N label draws T need (fun ds => take need (firsts label ds))
      (NoDup_filter _ _ (all_draws_NoDup N T)) draws_ok draws_pick draws_map s Hs). f_equal. rewrite filter_count. apply count_ext.
    intros ds Hd. rewrite (added_firsts ds Hd). apply bool_decide_ext. split; [by intros [= ->]|by intros ->].
  Qed.
  Lemma random_node j : j ∈ others N label ->
    (length (filter (fun ds => j ∈ default [] (go ds)) draws) * length (others N label) = need * length draws)%nat.
  Proof using All.
    intros Hj. rewrite <- (pick_node_fair N label draws T need (fun ds => take need (firsts label ds))
      (NoDup_filter _ _ (all_draws_NoDup N T)) draws_ok draws_pick draws_map j Hj). f_equal. rewrite filter_count. apply count_ext.
    intros ds Hd. rewrite (added_firsts ds Hd). done.
  Qed.
End Query.
