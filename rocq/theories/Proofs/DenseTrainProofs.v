(** Training that uses every node is determined by the initial parameters and the examples. *)
From Verif.Proofs Require Import BaseProofs MemProofs NetLive NetCalls NetInfer DenseProofs BatchProofs RepeatProofs EmptyProofs.
From Verif.Spec Require Import LayerSpec InferSpec ShapeSpec DenseTrainSpec.
From Coq Require Import Lia.
Local Open Scope Z_scope.

Lemma map_at {A B} (f : A -> B) (l : list A) (i : nat) : map f l !! i = f <$> l !! i.
Proof. apply list_lookup_fmap. Qed.
Definition nstate (adam : bool) (v : NodeView) :=
  (v_type v, v_w v, v_bias v, if adam then (v_mom v, v_vel v, v_momBias v, v_velBias v) else ([], [], fzero, fzero)).
Definition st (adam : bool) (lvs : list LayerView) := map (fun lv => (lv_type lv, map (nstate adam) (lv_nodes lv))) lvs.

Lemma st_params a l1 l2 : st a l1 = st a l2 -> parameters_of l1 = parameters_of l2.
Proof.
  revert l2. induction l1 as [|x l1 IH]; intros [|y l2] H; try done. cbn in H. injection H as Ht Hn H.
  specialize (IH _ H). unfold parameters_of in *. cbn [map]. rewrite IH. f_equal. rewrite Ht. f_equal. clear -Hn. revert Hn. generalize (lv_nodes y).
  induction (lv_nodes x) as [|v vs IH]; intros [|w ws] H; try done. cbn in H. injection H as H1 H2 H3 _ H4. cbn [map]. by rewrite (IH _ H4), H1, H2, H3.
Qed.
Lemma st_at a l1 l2 j lv1 lv2 i v1 v2 : st a l1 = st a l2 -> l1 !! j = Some lv1 -> l2 !! j = Some lv2 ->
  lv_nodes lv1 !! i = Some v1 -> lv_nodes lv2 !! i = Some v2 -> nstate a v1 = nstate a v2.
Proof.
  intros H H1 H2 G1 G2. apply (f_equal (lookup j)) in H. unfold st in H. rewrite !list_lookup_fmap, H1, H2 in H. cbn [fmap option_fmap option_map] in H.
  injection H as _ H. apply (f_equal (lookup i)) in H. rewrite !map_at, G1, G2 in H. cbn [fmap option_fmap option_map] in H. apply (inj Some) in H. exact H.
Qed.

Lemma st_intro a E1 E2 num sizes types batch inputDim k1 l1 rp1 k2 l2 rp2 nv1 nv2 :
  net_shape E1 num sizes types batch inputDim k1 l1 rp1 nv1 -> net_shape E2 num sizes types batch inputDim k2 l2 rp2 nv2 ->
  (forall j lv1 lv2 i v1 v2, nv_layers nv1 !! j = Some lv1 -> nv_layers nv2 !! j = Some lv2 ->
      lv_nodes lv1 !! i = Some v1 -> lv_nodes lv2 !! i = Some v2 -> nstate a v1 = nstate a v2) ->
  st a (nv_layers nv1) = st a (nv_layers nv2).
Proof.
  intros [Hn HS] [Hn' HS'] H. unfold st. apply list_eq. intros j. rewrite !list_lookup_fmap.
  destruct (nv_layers nv1 !! j) as [lv|] eqn:E1'.
  - destruct (lookup_lt_is_Some_2 (nv_layers nv2) j) as [lv' E2']; [apply lookup_lt_Some in E1'; lia|]. rewrite E2'. cbn. f_equal.
    destruct (HS _ _ E1') as (size & prev & ty & kj & lj & rj & G1 & G2 & G3 & G4 & G5 & G6 & Sh).
    destruct (HS' _ _ E2') as (size' & prev' & ty' & kj' & lj' & rj' & G1' & G2' & G3' & G4' & G5' & G6' & Sh').
    assert (size' = size) as -> by congruence. assert (ty' = ty) as -> by congruence.
    f_equal; [by rewrite (ss_type _ _ _ _ _ _ _ _ _ Sh), (ss_type _ _ _ _ _ _ _ _ _ Sh')|].
    apply list_eq. intros i. rewrite !list_lookup_fmap.
    pose proof (ss_size _ _ _ _ _ _ _ _ _ Sh) as HL. pose proof (ss_size _ _ _ _ _ _ _ _ _ Sh') as HL'.
    destruct (lv_nodes lv !! i) as [v|] eqn:F1.
    + destruct (lookup_lt_is_Some_2 (lv_nodes lv') i) as [v' F2]; [apply lookup_lt_Some in F1; lia|]. rewrite F2. cbn [fmap option_fmap option_map]. f_equal.
      exact (H _ _ _ _ _ _ E1' E2' F1 F2).
    + apply lookup_ge_None in F1. rewrite (proj2 (lookup_ge_None (lv_nodes lv') i)) by lia. done.
  - apply lookup_ge_None in E1'. rewrite (proj2 (lookup_ge_None (nv_layers nv2) j)) by lia. done.
Qed.

(** The errors are determined from the last layer backwards. *)
Lemma params_weight l1 l2 j lv1 lv2 k q : parameters_of l1 = parameters_of l2 -> l1 !! j = Some lv1 -> l2 !! j = Some lv2 ->
  weight_of (lv_nodes lv1) k q = weight_of (lv_nodes lv2) k q.
Proof.
  intros H H1 H2. apply (f_equal (lookup j)) in H. unfold parameters_of, parameters in H. rewrite !map_at, H1, H2 in H. cbn [fmap option_fmap option_map] in H.
  injection H as _ H. apply (f_equal (lookup (Z.to_nat k))) in H. rewrite !map_at in H.
  unfold weight_of. destruct (lv_nodes lv1 !! Z.to_nat k), (lv_nodes lv2 !! Z.to_nat k); cbn in *; try done. injection H as _ H _. by rewrite H.
Qed.
Lemma params_length l1 l2 : parameters_of l1 = parameters_of l2 -> length l1 = length l2.
Proof. intros H. apply (f_equal length) in H. unfold parameters_of in H. by rewrite !map_length in H. Qed.

Lemma errors_same batch l1 l2 lab outs d1 d2 : parameters_of l1 = parameters_of l2 -> length outs = S (length l1) ->
  errors batch l1 lab outs d1 -> errors batch l2 lab outs d2 -> d1 = d2.
Proof.
  intros HP HO [N1 H1] [N2 H2]. pose proof (params_length _ _ HP) as HL.
  assert (X : forall t j, (length l1 - j <= t)%nat -> d1 !! j = d2 !! j).
  { induction t as [|t IH]; intros j Hj.
    - rewrite (proj2 (lookup_ge_None d1 j)), (proj2 (lookup_ge_None d2 j)) by lia. done.
    - destruct (decide (j < length l1)%nat) as [Hlt|]; [|rewrite (proj2 (lookup_ge_None d1 j)), (proj2 (lookup_ge_None d2 j)) by lia; done].
      destruct (lookup_lt_is_Some_2 d1 j) as [a Ha]; [lia|]. destruct (lookup_lt_is_Some_2 d2 j) as [b Hb]; [lia|].
      destruct (lookup_lt_is_Some_2 outs (S j)) as [out Hout]; [lia|].
      rewrite Ha, Hb. f_equal. rewrite (H1 _ _ _ Hout Ha), (H2 _ _ _ Hout Hb), <- (IH (S j)) by lia.
      destruct (l1 !! S j) as [lv1|] eqn:E1.
      + destruct (lookup_lt_is_Some_2 l2 (S j)) as [lv2 E2]; [apply lookup_lt_Some in E1; lia|]. rewrite E2.
        destruct (outs !! S (S j)) as [out'|]; [|done]. destruct (d1 !! S j) as [d'|]; [|done].
        apply map_ext. intros p. unfold hidden_error. destruct (fleb _ _); [done|]. generalize fzero. generalize (zip out' d').
        intros act. induction act as [|[q d] act IHa]; intros acc; [done|]. cbn. by rewrite (params_weight _ _ _ _ _ _ _ HP E1 E2), IHa.
      + apply lookup_ge_None in E1. rewrite (proj2 (lookup_ge_None l2 (S j))) by lia. done. }
  apply list_eq. intros j. apply (X _ _ (le_n _)).
Qed.

Lemma pass_same E1 E2 batch num l1 l2 sps1 sps2 ex p1 p2 :
  e_exp E1 = e_exp E2 -> parameters_of l1 = parameters_of l2 -> Z.of_nat (length l1) = num ->
  dense_training num sps1 -> dense_training num sps2 ->
  pass_of E1 batch l1 sps1 ex p1 -> pass_of E2 batch l2 sps2 ex p2 -> p1 = p2.
Proof.
  intros HX HP HN D1 D2 (I1 & R1 & _) (I2 & R2 & _). pose proof (params_length _ _ HP) as HL.
  destruct p1 as [o1 d1], p2 as [o2 d2]. cbn [fst snd] in *.
  assert (o1 = o2) as ->.
  { apply list_eq. intros j. destruct (decide (j <= length l1)%nat) as [Hj|Hj].
    - rewrite (dense_upto E1 l1 sps1 0 _ _ _ (length l1) (le_n _)) by (try exact I1; try exact Hj; intros q Hq; apply D1; lia).
      rewrite (dense_upto E2 l2 sps2 0 _ _ _ (length l2) (le_n _)) by (try exact I2; try lia; intros q Hq; apply D2; lia).
      rewrite HX. f_equal. f_equal. unfold parameters_of in *. rewrite <- !firstn_map. by rewrite HP.
    - destruct I1 as [N1 _], I2 as [N2 _]. rewrite (proj2 (lookup_ge_None o1 j)), (proj2 (lookup_ge_None o2 j)) by lia. done. }
  f_equal. destruct I1 as [N1 _]. exact (errors_same _ _ _ _ _ _ _ HP N1 R1 R2).
Qed.

Lemma reshuffled_params iter l l' : reshuffled iter l l' -> parameters_of l' = parameters_of l.
Proof.
  intros [HF _]. induction HF as [|x y l l' (r & -> & _) HF IH]; [done|]. unfold parameters_of in *. cbn [map]. by rewrite IH.
Qed.

Lemma adam_same lr t tb v1 v1' v2 v2' :
  nstate true v1 = nstate true v2 -> length (v_mom v1) = length (v_w v1) -> length (v_vel v1) = length (v_w v1) ->
  identity v1' = identity v1 -> identity v2' = identity v2 ->
  adam_step lr t tb v1 v1' -> adam_step lr t tb v2 v2' -> nstate true v1' = nstate true v2'.
Proof.
  intros H M V J1 J2 [(A1 & A2 & A3 & A4) A (A5 & A6 & A7)] [(B1 & B2 & B3 & B4) B (B5 & B6 & B7)].
  unfold nstate in *. unfold identity in *. injection J1 as J1 _ _. injection J2 as J2 _ _.
  injection H as H1 H2 H3 H4 H5 H6 H7.
  assert (X : v_w v1' = v_w v2' /\ v_mom v1' = v_mom v2' /\ v_vel v1' = v_vel v2').
  { assert (Y : forall i, v_w v1' !! i = v_w v2' !! i /\ v_mom v1' !! i = v_mom v2' !! i /\ v_vel v1' !! i = v_vel v2' !! i).
    { rewrite <- H2 in B2, B3, B4. intros i. destruct (decide (i < length (v_w v1))%nat) as [Hi|Hi].
      - destruct (lookup_lt_is_Some_2 t i) as [g Hg]; [lia|]. destruct (lookup_lt_is_Some_2 (v_mom v1) i) as [mo Hmo]; [lia|].
        destruct (lookup_lt_is_Some_2 (v_vel v1) i) as [ve Hve]; [lia|]. destruct (lookup_lt_is_Some_2 (v_w v1) i) as [w Hw]; [lia|].
        destruct (A _ _ _ _ _ Hg Hmo Hve Hw) as (-> & -> & ->). rewrite H4 in Hmo. rewrite H5 in Hve. rewrite H2 in Hw.
        destruct (B _ _ _ _ _ Hg Hmo Hve Hw) as (-> & -> & ->). done.
      - rewrite !(proj2 (lookup_ge_None _ i)) by lia. done. }
    split; [|split]; apply list_eq; intros i; apply (Y i). }
  destruct X as (X1 & X2 & X3). rewrite X1, X2, X3, J1, J2, H1, A7, B7, A5, A6, B5, B6, H3, H6, H7. done.
Qed.

(** Without Adam the passes are determined one after the other. *)
Lemma sgd_layers_params lr ps l1 l2 ls1 ls2 : parameters_of l1 = parameters_of l2 ->
  sgd_layers lr ps l1 ls1 -> sgd_layers lr ps l2 ls2 -> parameters_of ls1 = parameters_of ls2.
Proof.
  intros HP [K1 H1] [K2 H2]. pose proof (params_length _ _ HP) as HL.
  pose proof (Forall2_length _ _ _ K1) as N1. pose proof (Forall2_length _ _ _ K2) as N2.
  unfold parameters_of. apply list_eq. intros j. rewrite !map_at.
  destruct (decide (j < length l1)%nat) as [Hj|Hj]; [|rewrite !(proj2 (lookup_ge_None _ j)) by lia; done].
  destruct (lookup_lt_is_Some_2 l1 j Hj) as [a Ha]. destruct (lookup_lt_is_Some_2 l2 j) as [b Hb]; [lia|].
  destruct (Forall2_lookup_l _ _ _ _ _ K1 Ha) as (a' & Ha' & Ka). destruct (Forall2_lookup_l _ _ _ _ _ K2 Hb) as (b' & Hb' & Kb).
  rewrite Ha', Hb'. cbn [fmap option_fmap option_map]. f_equal.
  apply (f_equal (lookup j)) in HP. unfold parameters_of, parameters in HP. rewrite !map_at, Ha, Hb in HP. cbn [fmap option_fmap option_map] in HP.
  injection HP as HT HV. f_equal; [by rewrite (lk_type _ _ Ka), (lk_type _ _ Kb)|].
  pose proof (lk_nodes _ _ Ka) as La. pose proof (lk_nodes _ _ Kb) as Lb. pose proof (f_equal length HV) as LV. rewrite !map_length in LV.
  apply list_eq. intros i. rewrite !list_lookup_fmap.
  destruct (decide (i < length (lv_nodes a))%nat) as [Hi|Hi]; [|rewrite !(proj2 (lookup_ge_None _ i)) by lia; done].
  destruct (lookup_lt_is_Some_2 (lv_nodes a) i Hi) as [v Hv]. destruct (lookup_lt_is_Some_2 (lv_nodes b) i) as [w Hw]; [lia|].
  destruct (lookup_lt_is_Some_2 (lv_nodes a') i) as [v' Hv']; [lia|]. destruct (lookup_lt_is_Some_2 (lv_nodes b') i) as [w' Hw']; [lia|].
  destruct (H1 _ _ _ _ _ _ Ha Ha' Hv Hv') as (X1 & X2 & X3). destruct (H2 _ _ _ _ _ _ Hb Hb' Hw Hw') as (Y1 & Y2 & Y3).
  apply (f_equal (lookup i)) in HV. rewrite !map_at, Hv, Hw in HV. cbn [fmap option_fmap option_map] in HV.
  injection HV as V1 V2 V3. unfold identity in *. injection X3 as X3 _ _. injection Y3 as Y3 _ _.
  rewrite Hv', Hw'. cbn [fmap option_fmap option_map]. by rewrite X1, X2, X3, Y1, Y2, Y3, V1, V2, V3.
Qed.

Lemma sgd_same E1 E2 batch num l1 l2 sps1 sps2 lr exs ps1 ps2 :
  e_exp E1 = e_exp E2 -> parameters_of l1 = parameters_of l2 -> Z.of_nat (length l1) = num ->
  dense_training num sps1 -> dense_training num sps2 ->
  sgd_passes E1 batch sps1 lr l1 exs ps1 -> sgd_passes E2 batch sps2 lr l2 exs ps2 -> ps1 = ps2.
Proof.
  intros HX HP HN D1 D2 [N1 H1] [N2 H2].
  assert (X : forall i, (i <= length exs)%nat -> take i ps1 = take i ps2).
  { induction i as [|i IH]; intros Hi; [done|].
    destruct (lookup_lt_is_Some_2 exs i) as [ex He]; [lia|]. destruct (lookup_lt_is_Some_2 ps1 i) as [p1 Hp1]; [lia|].
    destruct (lookup_lt_is_Some_2 ps2 i) as [p2 Hp2]; [lia|].
    destruct (H1 _ _ _ He Hp1) as (s1 & S1 & P1). destruct (H2 _ _ _ He Hp2) as (s2 & S2 & P2).
    rewrite <- (IH ltac:(lia)) in S2. pose proof (Forall2_length _ _ _ (proj1 S1)) as LS.
    rewrite (take_S_r _ _ _ Hp1), (take_S_r _ _ _ Hp2), (IH ltac:(lia)). f_equal. f_equal.
    refine (pass_same E1 E2 batch num s1 s2 sps1 sps2 ex p1 p2 HX (sgd_layers_params _ _ _ _ _ _ HP S1 S2) _ D1 D2 P1 P2). lia. }
  pose proof (X _ (le_n _)) as Y. by rewrite !take_ge in Y by lia.
Qed.

(** One training call. *)
Lemma shape_node E num sizes types batch inputDim k l rp nv j lv i v :
  net_shape E num sizes types batch inputDim k l rp nv -> nv_layers nv !! j = Some lv -> lv_nodes lv !! i = Some v ->
  e_UseAdam E = true -> length (v_mom v) = length (v_w v) /\ length (v_vel v) = length (v_w v).
Proof.
  intros [_ HS] Hj Hi HA. destruct (HS _ _ Hj) as (size & prev & ty & kj & lj & rj & _ & _ & _ & _ & _ & _ & Sh).
  pose proof (ss_nodes _ _ _ _ _ _ _ _ _ Sh _ _ Hi) as N. pose proof (sh_w _ _ _ _ _ _ N) as W. pose proof (sh_adam _ _ _ _ _ _ N) as (M & V & _).
  rewrite HA in M, V. lia.
Qed.
Lemma shape_back E num sizes types batch inputDim k l rp k' l' rp' nv nv' j lv' i v' :
  net_shape E num sizes types batch inputDim k l rp nv -> net_shape E num sizes types batch inputDim k' l' rp' nv' ->
  nv_layers nv' !! j = Some lv' -> lv_nodes lv' !! i = Some v' ->
  exists lv v, nv_layers nv !! j = Some lv /\ lv_nodes lv !! i = Some v.
Proof.
  intros [Hn HS] [Hn' HS'] Hj Hi. destruct (lookup_lt_is_Some_2 (nv_layers nv) j) as [lv E1]; [apply lookup_lt_Some in Hj; lia|].
  destruct (HS _ _ E1) as (size & prev & ty & kj & lj & rj & G1 & _ & _ & _ & _ & _ & Sh).
  destruct (HS' _ _ Hj) as (size' & prev' & ty' & kj' & lj' & rj' & G1' & _ & _ & _ & _ & _ & Sh').
  assert (size' = size) as -> by congruence.
  pose proof (ss_size _ _ _ _ _ _ _ _ _ Sh) as HL. pose proof (ss_size _ _ _ _ _ _ _ _ _ Sh') as HL'.
  destruct (lookup_lt_is_Some_2 (lv_nodes lv) i) as [v E2]; [apply lookup_lt_Some in Hi; lia|]. eauto.
Qed.
Lemma passes_same E1 E2 batch num l1 l2 sps1 sps2 exs ps1 ps2 :
  e_exp E1 = e_exp E2 -> parameters_of l1 = parameters_of l2 -> Z.of_nat (length l1) = num ->
  dense_training num sps1 -> dense_training num sps2 ->
  Forall2 (pass_of E1 batch l1 sps1) exs ps1 -> Forall2 (pass_of E2 batch l2 sps2) exs ps2 -> ps1 = ps2.
Proof.
  intros HX HP HN D1 D2 F1. revert ps2. induction F1 as [|ex p exs ps1 Hp F1 IH]; intros ps2 F2; inversion F2; subst; [done|].
  f_equal; [|by apply IH]. refine (pass_same E1 E2 batch _ l1 l2 sps1 sps2 ex p _ HX HP eq_refl D1 D2 _ _); assumption.
Qed.

  Lemma same_st I nv nv' a : net_same_but I nv nv' -> st a (nv_layers nv') = st a (nv_layers nv).
  Proof.
    intros [_ HF]. unfold st. induction HF as [|lv lv' ls ls' HL HF IH]; [done|]. cbn [map]. rewrite IH. f_equal.
    rewrite (ls_type _ _ _ HL). f_equal. pose proof (ls_nodes _ _ _ HL) as HN. clear -HN.
    induction HN as [|v v' vs vs' HB HN IH]; [done|]. cbn [map]. rewrite IH. f_equal.
    pose proof (sb_learned _ _ _ HB) as G. pose proof (sb_identity _ _ _ HB) as J. unfold learned, identity in *. unfold nstate.
    injection G as -> -> -> _ -> _ -> -> _. by injection J as -> _ _.
  Qed.

  Lemma new_nodes_same adam N1 p1 N2 p2 N P ty b : (forall i, N1 (p1 + i)%nat = N2 (p2 + i)%nat) ->
    NetRef.new_nodes adam N1 p1 N P ty b = NetRef.new_nodes adam N2 p2 N P ty b.
  Proof.
    intros H. assert (X : forall i, NetRef.norm_draw N1 (p1 + i) = NetRef.norm_draw N2 (p2 + i)) by (intros i; unfold NetRef.norm_draw; by rewrite H).
    unfold NetRef.new_nodes. apply map_ext. intros i. unfold NetRef.new_node. rewrite <- !(Nat.add_assoc _ (N * P)), !X. f_equal.
    rewrite <- !(Nat.add_comm (i * P)). apply list_eq. intros q. rewrite !map_at. destruct (decide (q < P)%nat).
    - rewrite !lookup_seq_lt by done. cbn [fmap option_fmap option_map]. f_equal. rewrite !(Nat.add_comm (i * P)), <- !Nat.add_assoc. apply X.
    - rewrite !lookup_seq_ge by lia. done.
  Qed.

Section Two.
  Context (E1 E2 : env) (c1 c2 num : Z) (sizes : list Z) (types : list NodeType) (batch : Z) (lr : float64) (inputDim : Z)
    (k1 l1 rp1 k2 l2 rp2 : list Z) (sps1 sps2 : list float64) (m1 m2 : mem) (n1 n2 : Network) (m1' m2' : mem).
  Context (HL1 : e_LoadWeight E1 = false) (HL2 : e_LoadWeight E2 = false) (HA : same_arithmetic E1 E2)
    (HD1 : dims_ok E1 num sizes batch inputDim) (HD2 : dims_ok E2 num sizes batch inputDim)
    (DT1 : dense_training num sps1) (DT2 : dense_training num sps2) (HM : same_draws m1 m2)
    (HN1 : network_New E1 c1 num sizes types batch lr inputDim k1 l1 rp1 sps1 m1 = Ok (n1, m1'))
    (HN2 : network_New E2 c2 num sizes types batch lr inputDim k2 l2 rp2 sps2 m2 = Ok (n2, m2')).

  Definition agrees (a1 a2 : mem) : Prop := exists nv1 nv2, live E1 a1 c1 n1 nv1 /\ live E2 a2 c2 n2 nv2 /\
    st (e_UseAdam E1) (nv_layers nv1) = st (e_UseAdam E1) (nv_layers nv2).

  Lemma rate_same iter : learning_rate E1 lr iter = learning_rate E2 lr iter.
  Proof using HA. destruct HA as (A & _ & P). unfold learning_rate. by rewrite A, P. Qed.

  Lemma train_agrees os1 os2 x1 x2 a1 a2 exs iter r1 b1 r2 b2 ins1 ins2 y1 y2 a1' a2' :
    call_ops E1 c1 n1 os1 m1' = Ok (x1, a1) -> call_ops E2 c2 n2 os2 m2' = Ok (x2, a2) -> agrees a1 a2 ->
    network_ProcessInput E1 c1 n1 exs iter r1 b1 a1 = Ok ((ins1, y1), a1') ->
    network_ProcessInput E2 c2 n2 exs iter r2 b2 a2 = Ok ((ins2, y2), a2') -> agrees a1' a2'.
  Proof using HL1 HL2 HA HD1 HD2 DT1 DT2 HN1 HN2.
    intros HO1 HO2 (nv1 & nv2 & L1 & L2 & HS) HP1 HP2.
    pose proof (call_snoc _ _ _ _ _ _ _ _ _ _ _ _ _ _ _ _ _ _ _ _ _ _ _ _ _ HL1 HD1 HN1 HO1 HP1) as HO1'.
    pose proof (call_snoc _ _ _ _ _ _ _ _ _ _ _ _ _ _ _ _ _ _ _ _ _ _ _ _ _ HL2 HD2 HN2 HO2 HP2) as HO2'.
    destruct (shape_calls _ _ _ _ _ _ _ _ _ _ _ _ _ _ _ _ _ _ HL1 HD1 HN1 HO1) as (_ & u1 & U1 & S1 & _).
    destruct (shape_calls _ _ _ _ _ _ _ _ _ _ _ _ _ _ _ _ _ _ HL2 HD2 HN2 HO2) as (_ & u2 & U2 & S2 & _).
    destruct (shape_calls _ _ _ _ _ _ _ _ _ _ _ _ _ _ _ _ _ _ HL1 HD1 HN1 HO1') as (_ & u1' & U1' & S1' & _).
    destruct (shape_calls _ _ _ _ _ _ _ _ _ _ _ _ _ _ _ _ _ _ HL2 HD2 HN2 HO2') as (_ & u2' & U2' & S2' & _).
    rewrite (live_unique _ _ _ _ _ _ U1 L1) in S1. rewrite (live_unique _ _ _ _ _ _ U2 L2) in S2. clear u1 u2 U1 U2.
    exists u1', u2'. split; [exact U1'|]. split; [exact U2'|]. refine (st_intro _ _ _ _ _ _ _ _ _ _ _ _ _ _ _ _ S1' S2' _).
    intros j lv1' lv2' i v1' v2' Hj1 Hj2 Hi1 Hi2.
    destruct (shape_back _ _ _ _ _ _ _ _ _ _ _ _ _ _ _ _ _ _ S1 S1' Hj1 Hi1) as (lv1 & v1 & Gj1 & Gi1).
    destruct (shape_back _ _ _ _ _ _ _ _ _ _ _ _ _ _ _ _ _ _ S2 S2' Hj2 Hi2) as (lv2 & v2 & Gj2 & Gi2).
    pose proof (st_at _ _ _ _ _ _ _ _ _ HS Gj1 Gj2 Gi1 Gi2) as HV. pose proof (st_params _ _ _ HS) as HP.
    destruct HA as (EA & EX & _). pose proof (rate_same iter) as HR. destruct (e_UseAdam E1) eqn:EU.
    - symmetry in EA.
      destruct (batch_training _ _ _ _ _ _ _ _ _ _ _ _ _ _ _ _ _ _ _ _ _ _ _ _ _ HL1 EU HD1 HN1 HO1 HP1) as (w1 & w1' & ls1 & ps1 & W1 & W1' & R1 & F1 & H1).
      destruct (batch_training _ _ _ _ _ _ _ _ _ _ _ _ _ _ _ _ _ _ _ _ _ _ _ _ _ HL2 EA HD2 HN2 HO2 HP2) as (w2 & w2' & ls2 & ps2 & W2 & W2' & R2 & F2 & H2).
      rewrite (live_unique _ _ _ _ _ _ W1 L1) in *. rewrite (live_unique _ _ _ _ _ _ W2 L2) in *.
      rewrite (live_unique _ _ _ _ _ _ W1' U1') in *. rewrite (live_unique _ _ _ _ _ _ W2' U2') in *.
      pose proof (reshuffled_params _ _ _ R1) as Q1. pose proof (reshuffled_params _ _ _ R2) as Q2.
      assert (Q : parameters_of ls1 = parameters_of ls2) by congruence.
      assert (HN : Z.of_nat (length ls1) = num) by (rewrite (params_length _ _ Q1); apply S1).
      rewrite (passes_same _ _ _ _ _ _ _ _ _ _ _ EX Q HN DT1 DT2 F1 F2) in H1.
      destruct (H1 _ _ _ _ _ _ Gj1 Hj1 Gi1 Hi1) as [J1 T1]. destruct (H2 _ _ _ _ _ _ Gj2 Hj2 Gi2 Hi2) as [J2 T2].
      destruct (shape_node _ _ _ _ _ _ _ _ _ _ _ _ _ _ S1 Gj1 Gi1 EU) as [M V]. rewrite <- HR in T2.
      assert (HW : v_w v2 = v_w v1) by (unfold nstate in HV; congruence). rewrite HW in T2.
      exact (adam_same _ _ _ _ _ _ _ HV M V J1 J2 T1 T2).
    - symmetry in EA.
      destruct (sgd_training _ _ _ _ _ _ _ _ _ _ _ _ _ _ _ _ _ _ _ _ _ _ _ _ _ HL1 EU HD1 HN1 HO1 HP1) as (w1 & w1' & ls1 & ps1 & W1 & W1' & R1 & F1 & H1).
      destruct (sgd_training _ _ _ _ _ _ _ _ _ _ _ _ _ _ _ _ _ _ _ _ _ _ _ _ _ HL2 EA HD2 HN2 HO2 HP2) as (w2 & w2' & ls2 & ps2 & W2 & W2' & R2 & F2 & H2).
      rewrite (live_unique _ _ _ _ _ _ W1 L1) in *. rewrite (live_unique _ _ _ _ _ _ W2 L2) in *.
      rewrite (live_unique _ _ _ _ _ _ W1' U1') in *. rewrite (live_unique _ _ _ _ _ _ W2' U2') in *.
      pose proof (reshuffled_params _ _ _ R1) as Q1. pose proof (reshuffled_params _ _ _ R2) as Q2.
      assert (Q : parameters_of ls1 = parameters_of ls2) by congruence.
      assert (HN : Z.of_nat (length ls1) = num) by (rewrite (params_length _ _ Q1); apply S1).
      rewrite <- HR in F2, H2. rewrite (sgd_same _ _ _ _ _ _ _ _ _ _ _ _ EX Q HN DT1 DT2 F1 F2) in H1.
      destruct (H1 _ _ _ _ _ _ Gj1 Hj1 Gi1 Hi1) as (J1 & X1 & B1). destruct (H2 _ _ _ _ _ _ Gj2 Hj2 Gi2 Hi2) as (J2 & X2 & B2).
      unfold nstate, identity in *. injection HV as V1 V2 V3. injection J1 as J1 _ _. injection J2 as J2 _ _.
      by rewrite J1, J2, X1, X2, B1, B2, V1, V2, V3.
  Qed.

  Lemma new_agrees : agrees m1' m2'.
  Proof using HL1 HL2 HA HD1 HD2 HM HN1 HN2.
    destruct (new_effect _ _ _ _ _ _ _ _ _ _ _ _ _ _ _ HL1 HD1 HN1) as (nv1 & L1 & S1 & H1).
    destruct (new_effect _ _ _ _ _ _ _ _ _ _ _ _ _ _ _ HL2 HD2 HN2) as (nv2 & L2 & S2 & H2).
    exists nv1, nv2. split; [exact L1|]. split; [exact L2|]. refine (st_intro _ _ _ _ _ _ _ _ _ _ _ _ _ _ _ _ S1 S2 _).
    intros j lv1 lv2 i v1 v2 Hj1 Hj2 Hi1 Hi2.
    destruct (proj2 S1 _ _ Hj1) as (size & prev & ty & kj & lj & rj & G1 & G2 & G3 & _ & _ & G6 & _).
    destruct (proj2 S2 _ _ Hj2) as (size' & prev' & ty' & kj' & lj' & rj' & _ & _ & _ & _ & _ & G6' & _).
    destruct (H1 _ _ _ _ _ _ Hj1 G1 G2 G3 G6) as [_ N1]. destruct (H2 _ _ _ _ _ _ Hj2 G1 G2 G3 G6') as [_ N2].
    assert (X : lv_nodes lv1 = lv_nodes lv2).
    { rewrite N1, N2. destruct HA as [-> _]. apply new_nodes_same. intros q. rewrite <- !Nat.add_assoc. apply HM. }
    rewrite X in Hi1. rewrite Hi1 in Hi2. by injection Hi2 as ->.
  Qed.
End Two.

Lemma call_ops_snoc E c n os o m n' m' : call_ops E c n (os ++ [o]) m = Ok (n', m') ->
  exists n1 m1, call_ops E c n os m = Ok (n1, m1) /\ call_op E c n1 o m1 = Ok (n', m').
Proof.
  unfold call_ops. rewrite MemProofs.mfold_app. unfold mbind, M_bind. destruct (mfold (call_op E c) n os m) as [[n1 m1]|]; [|done].
  cbn [mfold]. unfold mbind, M_bind. destruct (call_op E c n1 o m1) as [[n2 m2]|] eqn:Eo; [|done]. intros H. exists n1, m1. split; [done|]. rewrite Eo. exact H.
Qed.
Lemma lessons_app a b : lessons (a ++ b) = lessons a ++ lessons b.
Proof. unfold lessons. apply omap_app. Qed.

Lemma dense_history E1 E2 c1 c2 num sizes types batch lr inputDim k1 l1 rp1 k2 l2 rp2 sps1 sps2 m1 m2 n1 n2 m1' m2' os1 os2 x1 x2 a1 a2 :
  e_LoadWeight E1 = false -> e_LoadWeight E2 = false -> same_arithmetic E1 E2 ->
  dims_ok E1 num sizes batch inputDim -> dims_ok E2 num sizes batch inputDim ->
  dense_training num sps1 -> dense_training num sps2 -> same_draws m1 m2 ->
  network_New E1 c1 num sizes types batch lr inputDim k1 l1 rp1 sps1 m1 = Ok (n1, m1') ->
  network_New E2 c2 num sizes types batch lr inputDim k2 l2 rp2 sps2 m2 = Ok (n2, m2') ->
  lessons os1 = lessons os2 ->
  call_ops E1 c1 n1 os1 m1' = Ok (x1, a1) -> call_ops E2 c2 n2 os2 m2' = Ok (x2, a2) ->
  agrees E1 E2 c1 c2 n1 n2 a1 a2.
Proof.
  intros HL1 HL2 HA HD1 HD2 DT1 DT2 HM HN1 HN2.
  remember (length os1 + length os2)%nat as t eqn:Ht. revert os1 os2 x1 x2 a1 a2 Ht.
  induction t as [t IH] using lt_wf_ind. intros os1 os2 x1 x2 a1 a2 Ht HE HO1 HO2.
  assert (P1 : forall os exs, os1 = os ++ [OpPredict exs] -> agrees E1 E2 c1 c2 n1 n2 a1 a2).
  { intros os exs ->. apply call_ops_snoc in HO1 as (y & b & HO & HC). cbn [call_op] in HC. apply bindM_inv in HC as ([cnt z] & b' & HC & HR).
    injection HR as <- <-. destruct (shape_calls _ _ _ _ _ _ _ _ _ _ _ _ _ _ _ _ _ _ HL1 HD1 HN1 HO) as (-> & _).
    rewrite app_length in Ht. cbn in Ht. rewrite lessons_app in HE. cbn in HE. rewrite app_nil_r in HE.
    destruct (IH (length os + length os2)%nat ltac:(lia) os os2 _ _ _ _ eq_refl HE HO HO2) as (u & w & U & W & S).
    destruct (predict_unchanged _ _ _ _ _ _ _ _ _ U HC) as (_ & u' & U' & NS). exists u', w. split; [exact U'|]. split; [exact W|].
    rewrite (same_st _ _ _ _ NS). exact S. }
  assert (P2 : forall os exs, os2 = os ++ [OpPredict exs] -> agrees E1 E2 c1 c2 n1 n2 a1 a2).
  { intros os exs ->. apply call_ops_snoc in HO2 as (y & b & HO & HC). cbn [call_op] in HC. apply bindM_inv in HC as ([cnt z] & b' & HC & HR).
    injection HR as <- <-. destruct (shape_calls _ _ _ _ _ _ _ _ _ _ _ _ _ _ _ _ _ _ HL2 HD2 HN2 HO) as (-> & _).
    rewrite app_length in Ht. cbn in Ht. rewrite lessons_app in HE. cbn in HE. rewrite app_nil_r in HE.
    destruct (IH (length os1 + length os)%nat ltac:(lia) os1 os _ _ _ _ eq_refl HE HO1 HO) as (u & w & U & W & S).
    destruct (predict_unchanged _ _ _ _ _ _ _ _ _ W HC) as (_ & w' & W' & NS). exists u, w'. split; [exact U|]. split; [exact W'|].
    rewrite (same_st _ _ _ _ NS). exact S. }
  destruct os1 as [|o1 os1 _] using rev_ind; destruct os2 as [|o2 os2 _] using rev_ind.
  - injection HO1 as <- <-. injection HO2 as <- <-. exact (new_agrees _ _ _ _ _ _ _ _ _ _ _ _ _ _ _ _ _ _ _ _ _ _ _ _ HL1 HL2 HA HD1 HD2 HM HN1 HN2).
  - destruct o2 as [exs iter r b|exs]; [|exact (P2 _ _ eq_refl)]. rewrite lessons_app in HE. cbn in HE. symmetry in HE. apply app_eq_nil in HE as [_ HE]. discriminate HE.
  - destruct o1 as [exs iter r b|exs]; [|exact (P1 _ _ eq_refl)]. rewrite lessons_app in HE. cbn in HE. apply app_eq_nil in HE as [_ HE]. discriminate HE.
  - destruct o1 as [exs iter r b|exs]; [|exact (P1 _ _ eq_refl)]. destruct o2 as [exs2 iter2 r2 b2|exs2]; [|exact (P2 _ _ eq_refl)].
    rewrite !lessons_app in HE. cbn in HE. apply app_inj_2 in HE as [HE HQ]; [|reflexivity]. injection HQ as <- <-.
    apply call_ops_snoc in HO1 as (y1 & d1 & HO1 & HC1). apply call_ops_snoc in HO2 as (y2 & d2 & HO2 & HC2). cbn [call_op] in HC1, HC2.
    apply bindM_inv in HC1 as ([i1 z1] & e1 & HC1 & HR1). injection HR1 as <- <-. apply bindM_inv in HC2 as ([i2 z2] & e2 & HC2 & HR2). injection HR2 as <- <-.
    destruct (shape_calls _ _ _ _ _ _ _ _ _ _ _ _ _ _ _ _ _ _ HL1 HD1 HN1 HO1) as (-> & _).
    destruct (shape_calls _ _ _ _ _ _ _ _ _ _ _ _ _ _ _ _ _ _ HL2 HD2 HN2 HO2) as (-> & _).
    rewrite !app_length in Ht. cbn in Ht. pose proof (IH (length os1 + length os2)%nat ltac:(lia) os1 os2 _ _ _ _ eq_refl HE HO1 HO2) as HG.
    exact (train_agrees _ _ _ _ _ _ _ _ _ _ _ _ _ _ _ _ _ _ _ _ _ _ _ _ HL1 HL2 HA HD1 HD2 DT1 DT2 HN1 HN2 _ _ _ _ _ _ _ _ _ _ _ _ _ _ _ _ _ _ HO1 HO2 HG HC1 HC2).
Qed.

Lemma dense_parameters E1 E2 c1 c2 num sizes types batch lr inputDim k1 l1 rp1 k2 l2 rp2 sps1 sps2 m1 m2 n1 n2 m1' m2' os1 os2 x1 x2 a1 a2 :
  e_LoadWeight E1 = false -> e_LoadWeight E2 = false -> same_arithmetic E1 E2 ->
  dims_ok E1 num sizes batch inputDim -> dims_ok E2 num sizes batch inputDim ->
  dense_training num sps1 -> dense_training num sps2 -> same_draws m1 m2 ->
  network_New E1 c1 num sizes types batch lr inputDim k1 l1 rp1 sps1 m1 = Ok (n1, m1') ->
  network_New E2 c2 num sizes types batch lr inputDim k2 l2 rp2 sps2 m2 = Ok (n2, m2') ->
  lessons os1 = lessons os2 ->
  call_ops E1 c1 n1 os1 m1' = Ok (x1, a1) -> call_ops E2 c2 n2 os2 m2' = Ok (x2, a2) ->
  exists nv1 nv2, live E1 a1 c1 n1 nv1 /\ live E2 a2 c2 n2 nv2 /\ parameters_of (nv_layers nv1) = parameters_of (nv_layers nv2).
Proof.
  intros HL1 HL2 HA HD1 HD2 DT1 DT2 HM HN1 HN2 HE HO1 HO2.
  destruct (dense_history _ _ _ _ _ _ _ _ _ _ _ _ _ _ _ _ _ _ _ _ _ _ _ _ _ _ _ _ _ _ HL1 HL2 HA HD1 HD2 DT1 DT2 HM HN1 HN2 HE HO1 HO2) as (u & w & U & W & S).
  exists u, w. split; [exact U|]. split; [exact W|]. exact (st_params _ _ _ S).
Qed.

Lemma dense_counts E1 E2 c1 c2 num sizes types batch lr inputDim k1 l1 rp1 k2 l2 rp2 sps1 sps2 m1 m2 n1 n2 m1' m2' os1 os2 x1 x2 a1 a2 exs cnt1 cnt2 y1 y2 b1 b2 :
  e_LoadWeight E1 = false -> e_LoadWeight E2 = false -> same_arithmetic E1 E2 ->
  dims_ok E1 num sizes batch inputDim -> dims_ok E2 num sizes batch inputDim ->
  dense_training num sps1 -> dense_training num sps2 -> same_draws m1 m2 ->
  network_New E1 c1 num sizes types batch lr inputDim k1 l1 rp1 sps1 m1 = Ok (n1, m1') ->
  network_New E2 c2 num sizes types batch lr inputDim k2 l2 rp2 sps2 m2 = Ok (n2, m2') ->
  lessons os1 = lessons os2 ->
  call_ops E1 c1 n1 os1 m1' = Ok (x1, a1) -> call_ops E2 c2 n2 os2 m2' = Ok (x2, a2) ->
  dense_prediction n1 -> dense_prediction n2 ->
  network_PredictClass E1 c1 n1 exs a1 = Ok ((cnt1, y1), b1) -> network_PredictClass E2 c2 n2 exs a2 = Ok ((cnt2, y2), b2) -> cnt1 = cnt2.
Proof.
  intros HL1 HL2 HA HD1 HD2 DT1 DT2 HM HN1 HN2 HE HO1 HO2 DP1 DP2 P1 P2.
  destruct (dense_parameters _ _ _ _ _ _ _ _ _ _ _ _ _ _ _ _ _ _ _ _ _ _ _ _ _ _ _ _ _ _ HL1 HL2 HA HD1 HD2 DT1 DT2 HM HN1 HN2 HE HO1 HO2) as (u & w & U & W & S).
  rewrite (dense_predict _ _ _ _ _ _ _ _ _ U DP1 P1), (dense_predict _ _ _ _ _ _ _ _ _ W DP2 P2), S. destruct HA as (_ & -> & _). reflexivity.
Qed.
