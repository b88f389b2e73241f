(** Go's < on float64, without real numbers. *)
From Verif.Model Require Import IndexValue.
From Verif.Spec Require Import HashSpec.
From Verif.Proofs Require Import BaseProofs.
From Coq Require Import Lia.

(** A lexicographic key whose order is that of SFcompare. *)
Definition fkey (x : float64) : Z * Z * Z :=
  match x with
  | S754_infinity true => (-2, 0, 0)
  | S754_finite true m e => (-1, -e, - Zpos m)
  | S754_zero _ => (0, 0, 0)
  | S754_finite false m e => (1, e, Zpos m)
  | S754_infinity false => (2, 0, 0)
  | S754_nan => (0, 0, 0)
  end.

Definition klt (k k' : Z * Z * Z) : Prop :=
  let '(a, b, c) := k in let '(a', b', c') := k' in
  a < a' \/ (a = a' /\ (b < b' \/ (b = b' /\ c < c'))).

Lemma fltb_key x y :
  fltb x y = true <-> is_nan x = false /\ is_nan y = false /\ klt (fkey x) (fkey y).
Proof.
  unfold fltb, SFltb.
  destruct x as [sx|sx| |sx mx ex], y as [sy|sy| |sy my ey];
    repeat match goal with s : bool |- _ => destruct s end; simpl;
    try (split; intros; [try (split; [done|split; [done|lia]]); done | try done; lia]);
    destruct (Z.compare_spec ex ey); try (change (Pos.compare_cont Eq mx my) with (Pos.compare mx my));
    try destruct (Pos.compare_spec mx my); simpl; split; intros;
    try done; repeat split; try done; try lia.
Qed.

Lemma feqb_key x y :
  feqb x y = true <-> is_nan x = false /\ is_nan y = false /\ fkey x = fkey y.
Proof.
  unfold feqb, SFeqb.
  destruct x as [sx|sx| |sx mx ex], y as [sy|sy| |sy my ey];
    repeat match goal with s : bool |- _ => destruct s end; simpl;
    try (split; [try (intros; repeat split; done); done | intros (? & ? & [=]); try done; congruence]);
    destruct (Z.compare_spec ex ey); try (change (Pos.compare_cont Eq mx my) with (Pos.compare mx my));
    try destruct (Pos.compare_spec mx my); simpl; split; intros;
    try done; repeat split; try done; try congruence;
    match goal with H : _ /\ _ /\ _ |- _ => destruct H as (_ & _ & [=]) end; try lia; subst; lia.
Qed.

Lemma fltb_irrefl x : fltb x x = false.
Proof.
  destruct (fltb x x) eqn:E; [|done]. apply fltb_key in E as (_ & _ & H).
  destruct (fkey x) as [[a b] c]. simpl in H. lia.
Qed.

Lemma fltb_trans x y z : fltb x y = true -> fltb y z = true -> fltb x z = true.
Proof.
  rewrite !fltb_key. intros (? & ? & H1) (? & ? & H2). repeat split; [done..|].
  destruct (fkey x) as [[a b] c], (fkey y) as [[a' b'] c'], (fkey z) as [[a'' b''] c'']. simpl in *. lia.
Qed.

Lemma fltb_nan_l x : fltb S754_nan x = false.
Proof. done. Qed.
Lemma fltb_nan_r x : fltb x S754_nan = false.
Proof. destruct x; done. Qed.

Lemma fltb_not_nan x y : fltb x y = true -> is_nan x = false /\ is_nan y = false.
Proof. rewrite fltb_key. tauto. Qed.

Lemma fltb_false_key x y : is_nan x = false -> is_nan y = false ->
  fltb x y = false -> ~ klt (fkey x) (fkey y).
Proof. intros ? ? H Hk. assert (fltb x y = true) by (by apply fltb_key). congruence. Qed.

(** Negative transitivity on comparable values. *)
Lemma fltb_le_lt_trans x y z :
  is_nan x = false -> fltb y x = false -> fltb y z = true -> fltb x z = true.
Proof.
  intros Hx H1 H2. pose proof (fltb_not_nan _ _ H2) as [Hy Hz].
  pose proof (fltb_false_key y x Hy Hx H1) as Hk. apply fltb_key in H2 as (_ & _ & H2).
  apply fltb_key. repeat split; [done..|].
  destruct (fkey x) as [[a b] c], (fkey y) as [[a' b'] c'], (fkey z) as [[a'' b''] c'']. simpl in *. lia.
Qed.

Lemma fltb_lt_le_trans x y z :
  is_nan z = false -> fltb x y = true -> fltb z y = false -> fltb x z = true.
Proof.
  intros Hz H1 H2. pose proof (fltb_not_nan _ _ H1) as [Hx Hy].
  pose proof (fltb_false_key z y Hz Hy H2) as Hk. apply fltb_key in H1 as (_ & _ & H1).
  apply fltb_key. repeat split; [done..|].
  destruct (fkey x) as [[a b] c], (fkey y) as [[a' b'] c'], (fkey z) as [[a'' b''] c'']. simpl in *. lia.
Qed.

Lemma fltb_false_trans x y z :
  is_nan y = false -> fltb x y = false -> fltb y z = false -> is_nan x = false -> is_nan z = false -> fltb x z = false.
Proof.
  intros Hy H1 H2 Hx Hz. destruct (fltb x z) eqn:E; [|done].
  pose proof (fltb_false_key _ _ Hx Hy H1). pose proof (fltb_false_key _ _ Hy Hz H2).
  apply fltb_key in E as (_ & _ & E).
  destruct (fkey x) as [[a b] c], (fkey y) as [[a' b'] c'], (fkey z) as [[a'' b''] c'']. simpl in *. lia.
Qed.

Lemma fltb_asym x y : fltb x y = true -> fltb y x = false.
Proof.
  intros H. destruct (fltb y x) eqn:E; [|done].
  pose proof (fltb_trans _ _ _ H E). by rewrite fltb_irrefl in *.
Qed.

(** One step of the "keep the first maximum" loop over labelled values. *)
Definition amax_step {L} (st : L * float64) (lv : L * float64) : L * float64 :=
  if fltb st.2 lv.2 then lv else st.

Lemma amax_spec {L} (l0 : L) lo (lvs : list (L * float64)) :
  let r := fold_left amax_step lvs (l0, lo) in
  (none_above lo (lvs.*2) /\ r = (l0, lo)) \/
  (exists q, first_max lo (lvs.*2) q /\ lvs !! q = Some r).
Proof.
  cbv zeta. induction lvs as [|[l x] lvs IH] using rev_ind.
  - left. split; [|done]. intros q v Hq. done.
  - rewrite fold_left_snoc. set (r := fold_left amax_step lvs (l0, lo)) in *.
    clearbody r. unfold amax_step. destruct IH as [[Hn ->]|(q & Hq & Hr)].
    + cbn [fst snd]. destruct (fltb lo x) eqn:Ex.
      * right. exists (length lvs). split.
        -- exists x. rewrite fmap_app. split; [|split; [done|split]].
           ++ rewrite lookup_app_r by (by rewrite fmap_length). by rewrite fmap_length, Nat.sub_diag.
           ++ intros q' v' Hq'. apply lookup_app_Some in Hq' as [Hq'|[_ Hq']].
              ** apply Hn in Hq'. destruct (fltb x v') eqn:E; [|done].
                 by rewrite (fltb_trans _ _ _ Ex E) in Hq'.
              ** apply list_lookup_singleton_Some in Hq' as [_ <-]. apply fltb_irrefl.
           ++ intros q' v' Hlt Hq' He. rewrite lookup_app_l in Hq' by (by rewrite fmap_length).
              apply Hn in Hq'. congruence.
        -- by apply list_lookup_middle.
      * left. split; [|done]. intros q v Hq. rewrite fmap_app in Hq.
        apply lookup_app_Some in Hq as [Hq|[_ Hq]]; [by eapply Hn|].
        by apply list_lookup_singleton_Some in Hq as [_ <-].
    + destruct r as [l1 w]. cbn [fst snd].
      destruct Hq as (v & Hv & Hlo & Hmax & Hfirst).
      assert (w = v) as ->.
      { rewrite list_lookup_fmap, Hr in Hv. by injection Hv. }
      destruct (fltb v x) eqn:Ex.
      * right. exists (length lvs). split; [|by apply list_lookup_middle].
        exists x. rewrite fmap_app. split; [|split; [|split]].
        -- rewrite lookup_app_r by (by rewrite fmap_length). by rewrite fmap_length, Nat.sub_diag.
        -- by eapply fltb_trans.
        -- intros q' v' Hq'. apply lookup_app_Some in Hq' as [Hq'|[_ Hq']].
           ++ apply Hmax in Hq'. destruct (fltb x v') eqn:E; [|done].
              by rewrite (fltb_trans _ _ _ Ex E) in Hq'.
           ++ apply list_lookup_singleton_Some in Hq' as [_ <-]. apply fltb_irrefl.
        -- intros q' v' Hlt Hq' He. rewrite lookup_app_l in Hq' by (by rewrite fmap_length).
           apply Hmax in Hq'. eapply fltb_le_lt_trans; [|exact Hq'|exact Ex].
           by destruct (fltb_not_nan _ _ He).
      * right. exists q. split; [|by apply lookup_app_l_Some].
        exists v. rewrite fmap_app. split; [by apply lookup_app_l_Some|]. split; [done|]. split.
        -- intros q' v' Hq'. apply lookup_app_Some in Hq' as [Hq'|[_ Hq']]; [by eapply Hmax|].
           by apply list_lookup_singleton_Some in Hq' as [_ <-].
        -- intros q' v' Hlt Hq' He. apply lookup_lt_Some in Hv.
           rewrite lookup_app_l in Hq' by lia. by eapply Hfirst.
Qed.

(** The position is determined. *)
Lemma first_max_functional lo vals q q' : first_max lo vals q -> first_max lo vals q' -> q = q'.
Proof.
  intros (v & Hv & Hlo & Hm & Hf) (v' & Hv' & Hlo' & Hm' & Hf').
  destruct (Nat.lt_trichotomy q q') as [H|[H|H]]; [|done|].
  - pose proof (Hf' _ _ H Hv Hlo) as E. rewrite (Hm _ _ Hv') in E. done.
  - pose proof (Hf _ _ H Hv' Hlo') as E. rewrite (Hm' _ _ Hv) in E. done.
Qed.
Lemma first_max_not_none lo vals q : first_max lo vals q -> none_above lo vals -> False.
Proof. intros (v & Hv & Hlo & _) Hn. apply Hn in Hv. congruence. Qed.
