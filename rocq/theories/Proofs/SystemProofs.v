(** Networks in one program do not disturb each other. *)
From Verif.Spec Require Import SystemSpec.
From Verif.Proofs Require Import NetLive NetInfer NetShape NetCalls AdamProofs.
From Coq Require Import Lia ZifyBool ZifyNat.
Local Open Scope Z_scope.

(** The layers [lvs] are in memory, in the objects [lls]. *)
Definition held (m : mem) (c : Z) (arr : nat) (lls : list LayerLay) (lvs : list LayerView) : Prop :=
  m_la m !! arr = Some (map ll_ptr lls) /\ length lls = length lvs /\
  forall j ll lv, lls !! j = Some ll -> lvs !! j = Some lv -> layer_rep m c ll lv.
Lemma held_rep m c arr lls nv : net_rep m c arr lls nv <-> held m c arr lls (nv_layers nv) /\ m_rng m = nv_rng nv /\ m_seeds m = nv_seeds nv.
Proof. split; [intros []; done|]. intros ((? & ? & ?) & ? & ?). by constructor. Qed.
Lemma held_live E m c n lls lvs : nw_cowId n = c -> nw_num n = Z.of_nat (length lvs) -> held m c (nw_layers n) lls lvs -> lays_ok lls -> spare_ok E lls ->
  live E m c n (mkNV lvs (m_rng m) (m_seeds m)).
Proof. intros Hc Hn H O S. split; [done|]. split; [done|]. exists lls. split; [|done]. by apply held_rep. Qed.

(** No object of [A] is one of [B]. *)
Record far1 (a b : LayerLay) : Prop := mkFar {
  fa_ptr : ll_ptr a <> ll_ptr b;
  fa_rand : ll_rand a <> ll_rand b;
  fa_tables : ll_tables a <> ll_tables b;
  fa_norm : forall x, ll_norm a = Some x -> ll_norm b <> Some x;
  fa_apart : forall ly ly', ly ∈ ll_lys a -> ly' ∈ ll_lys b -> apart ly ly' /\ apart ly' ly;
  fa_slices : forall x ly s, ll_norm a = Some x -> ly ∈ ll_lys b -> s ∈ ly_slices ly -> fs_len s <= 0 \/ fs_loc s <> x;
  fa_slices' : forall x ly s, ll_norm b = Some x -> ly ∈ ll_lys a -> s ∈ ly_slices ly -> fs_len s <= 0 \/ fs_loc s <> x
}.
Definition far (A B : list LayerLay) : Prop := forall a b, a ∈ A -> b ∈ B -> far1 a b.
Lemma far_sym A B : far A B -> far B A.
Proof.
  intros H b a Hb Ha. destruct (H _ _ Ha Hb). constructor; try done.
  - intros x Hx Hx'. by eapply fa_norm0.
  - intros ly ly' H1 H2. apply and_comm. eauto.
Qed.

(** Writing into the objects of [A] keeps the layers in [B]. *)
Lemma far_stable A B c arr lvs : far A B -> Stable A (fun m => held m c arr B lvs).
Proof.
  intros HF.
  assert (HB : forall j ll, B !! j = Some ll -> forall a, a ∈ A -> far1 a ll).
  { intros j ll Hj a Ha. apply HF; [done|]. by eapply elem_of_list_lookup_2. }
  constructor.
  - intros T Bs S m m' (H1 & H2 & H3) Ht HT HBs HS. split; [by rewrite (tc_la _ _ _ _ _ Ht)|]. split; [done|].
    intros j ll lv Hll Hlv. destruct (H3 _ _ _ Hll Hlv) as [L1 L2 L3 L4 L5 L6]. pose proof (HB _ _ Hll) as HA. constructor.
    + rewrite (tc_layer _ _ _ _ _ Ht). exact L1.
    + rewrite (tc_na _ _ _ _ _ Ht). exact L2.
    + rewrite (tc_ia _ _ _ _ _ Ht). exact L3.
    + destruct (ll_norm ll) as [x|] eqn:En; [|done]. rewrite (touched_array _ _ _ _ _ x Ht); [done|].
      intros s Hs. destruct (HS _ Hs) as (a & ly & Ha & Hly & Hs'). by eapply (fa_slices' _ _ (HA _ Ha)).
    + rewrite (tc_lsh _ _ _ _ _ Ht). exact L5.
    + eapply reps_frame; [exact L6|exact Ht|]. apply Forall_forall. intros ly Hly. split; [|split].
      * intros l Hl Hl'. destruct (HT _ Hl') as (a & la & Ha & Hla & Hin).
        destruct (fa_apart _ _ (HA _ Ha) _ _ Hla Hly) as [_ (_ & Hd & _)]. by eapply Hd.
      * intros Hb. destruct (HBs _ Hb) as (a & la & Ha & Hla & He).
        destruct (fa_apart _ _ (HA _ Ha) _ _ Hla Hly) as [_ (Hd & _)]. congruence.
      * intros s s' Hs Hs'. destruct (HS _ Hs') as (a & la & Ha & Hla & Hin).
        destruct (fa_apart _ _ (HA _ Ha) _ _ Hla Hly) as [_ (_ & _ & Hd)]. by apply Hd.
  - intros m a x xs (H1 & H2 & H3) Ha Hx. split; [done|]. split; [done|].
    intros j ll lv Hll Hlv. destruct (H3 _ _ _ Hll Hlv) as [L1 L2 L3 L4 L5 L6]. pose proof (HB _ _ Hll _ Ha) as HA. constructor; try done.
    + destruct (ll_norm ll) as [b|] eqn:En; [|done]. cbn. rewrite list_lookup_insert_ne; [done|]. intros ->.
      by eapply (fa_norm _ _ HA).
    + destruct L6 as [M1 M2 M3]. constructor; [done..|]. intros y n ly v Hn Hly Hv. eapply (rep_upd_f (P := fun _ => True) c [] lays_nil); [by eapply M3|].
      intros s Hs. eapply (fa_slices _ _ HA); [done| |done]. by eapply elem_of_list_lookup_2.
  - intros m a t (H1 & H2 & H3) Ha. split; [done|]. split; [done|].
    intros j ll lv Hll Hlv. destruct (H3 _ _ _ Hll Hlv) as [L1 L2 L3 L4 L5 L6]. pose proof (HB _ _ Hll _ Ha) as HA. constructor; try done.
    + cbn. rewrite list_lookup_insert_ne; [done|]. apply HA.
    + by eapply (reps_same _ m).
  - intros m a t (H1 & H2 & H3) Ha. split; [done|]. split; [done|].
    intros j ll lv Hll Hlv. destruct (H3 _ _ _ Hll Hlv) as [L1 L2 L3 L4 L5 L6]. pose proof (HB _ _ Hll _ Ha) as HA. constructor; try done.
    + cbn. rewrite list_lookup_insert_ne; [done|]. apply HA.
    + by eapply (reps_same _ m).
  - intros m a t (H1 & H2 & H3) Ha. split; [done|]. split; [done|].
    intros j ll lv Hll Hlv. destruct (H3 _ _ _ Hll Hlv) as [L1 L2 L3 L4 L5 L6]. pose proof (HB _ _ Hll _ Ha) as HA. constructor; try done.
    + cbn. rewrite list_lookup_insert_ne; [done|]. apply HA.
    + by eapply (reps_same _ m).
  - intros m g (H1 & H2 & H3). split; [done|]. split; [done|]. intros. eapply (layer_same _ m); try done. eauto.
  - intros m g (H1 & H2 & H3). split; [done|]. split; [done|]. intros. eapply (layer_same _ m); try done. eauto.
Qed.
Lemma all_stable {X} A (Q : X -> Prop) (R : X -> mem -> Prop) : (forall x, Q x -> Stable A (R x)) -> Stable A (fun m => forall x, Q x -> R x m).
Proof. intros H. constructor; intros; destruct (H x ltac:(done)); eauto. Qed.

(** New objects are far from the old ones. *)
Lemma fresh_far m c arr A lvs B : held m c arr A lvs -> Forall (fresh_lay m) B -> far A B.
Proof.
  intros (_ & HL & HA) HB a b Ha Hb. rewrite Forall_forall in HB. pose proof (HB _ Hb) as F.
  apply elem_of_list_lookup in Ha as [j Hj]. destruct (lookup_lt_is_Some_2 lvs j) as [lv Hlv]; [apply lookup_lt_Some in Hj; lia|].
  pose proof (HA _ _ _ Hj Hlv) as L.
  constructor.
  - pose proof (lookup_lt_Some _ _ _ (lr_layer _ _ _ _ L)). pose proof (fr_ptr _ _ F). lia.
  - pose proof (lookup_lt_Some _ _ _ (lr_rand _ _ _ _ L)). pose proof (fr_rand _ _ F). lia.
  - pose proof (lookup_lt_Some _ _ _ (lr_tables _ _ _ _ L)). pose proof (fr_tables _ _ F). lia.
  - intros x Hx Hx'. pose proof (lr_norm _ _ _ _ L) as HN. rewrite Hx in HN. apply lookup_lt_Some in HN. pose proof (fr_norm _ _ F _ Hx'). lia.
  - intros ly ly' H1 H2. by eapply fresh_apart.
  - intros x ly s Hx Hly Hs. pose proof (lr_norm _ _ _ _ L) as HN. rewrite Hx in HN. apply lookup_lt_Some in HN.
    destruct (fr_slices _ _ F _ _ Hly Hs); [by left|]. right. lia.
  - intros x ly s Hx Hly Hs. destruct (layer_lys _ _ _ _ _ L Hly) as (n & v & R). apply rep_bound in R as (_ & _ & B3).
    pose proof (fr_norm _ _ F _ Hx). destruct (B3 _ Hs); [by left|]. right. lia.
Qed.

(** A call keeps whatever is stable. *)
Lemma call_keeps E m c n nv o lls (P : mem -> Prop) : Stable lls P -> P m ->
  nw_cowId n = c -> net_rep m c (nw_layers n) lls nv -> lays_ok lls -> spare_ok E lls ->
  refines (call_op E c n o m) (ref_call E n nv o) (fun nv' n' m' => n' = n /\ net_rep m' c (nw_layers n) lls nv' /\ P m').
Proof.
  intros ST HP Hc R O S. assert (R0 : net_inv P m c (nw_layers n) lls nv) by (by apply net_inv_rep).
  destruct o as [exs iter rehash rebuild|exs]; cbn [call_op ref_call].
  - eapply refines_bind; [exact (process_gen E c (nw_layers n) lls O S m nv n exs iter rehash rebuild R0 eq_refl Hc)|].
    intros [ins nv'] [? ?] m' [[= -> ->] R']. apply refines_ret. split; [done|]. by apply net_inv_rep.
  - eapply refines_bind; [exact (predict_gen E c (nw_layers n) lls O m nv n exs R0 eq_refl Hc)|].
    intros [ins nv'] [? ?] m' [[= -> ->] R']. apply refines_ret. split; [done|]. by apply net_inv_rep.
Qed.

(** * The state of a program *)
(** What is known of one network: its objects and its layers, those it was made with, the calls made since. *)
Record entry := mkEntry { en_args : new_args; en_lls : list LayerLay; en_start : list LayerView; en_calls : list net_op; en_now : list LayerView }.
Definition lhistory (E : env) (batch : Z) (sparsity : list float64) (lr0 : float64) (lvs : list LayerView) (os : list net_op) (lvs' : list LayerView) : Prop :=
  exists nv nv' pss, nv_layers nv = lvs /\ nv_layers nv' = lvs' /\ history E batch sparsity lr0 nv os pss nv'.
Record entry_ok (E : env) (m : mem) (n : Network) (e : entry) : Prop := mkEntryOk {
  eo_net : n = mkNet (na_cow (en_args e)) (nw_layers n) (na_lr (en_args e)) (na_num (en_args e)) (na_sparsity (en_args e));
  eo_held : held m (nw_cowId n) (nw_layers n) (en_lls e) (en_now e);
  eo_lays : lays_ok (en_lls e);
  eo_spare : spare_ok E (en_lls e);
  eo_batch : 0 <= na_batch (en_args e);
  eo_num : na_num (en_args e) = Z.of_nat (length (en_now e));
  eo_shape : exists cfg, cfg_of cfg (na_sizes (en_args e)) (na_types (en_args e)) (na_input (en_args e)) (na_k (en_args e)) (na_l (en_args e)) (na_rp (en_args e)) /\
    all_shape E (Z.to_nat (na_batch (en_args e))) cfg (en_now e);
  eo_settled : Forall (fun lv => Forall (settled (e_UseAdam E)) (lv_nodes lv)) (en_now e);
  eo_history : lhistory E (na_batch (en_args e)) (na_sparsity (en_args e)) (na_lr (en_args e)) (en_start e) (en_calls e) (en_now e)
}.
Definition sys_ok (E : env) (m : mem) (ns : list Network) (es : list entry) : Prop :=
  Forall2 (entry_ok E m) ns es /\
  forall i j e e', es !! i = Some e -> es !! j = Some e' -> i <> j -> far (en_lls e) (en_lls e').

Lemma history_seeds E batch sps lr0 nv os pss nv' : history E batch sps lr0 nv os pss nv' -> forall nv1, nv_layers nv1 = nv_layers nv' ->
  exists nv0, nv_layers nv0 = nv_layers nv /\ history E batch sps lr0 nv0 os pss nv1.
Proof.
  induction 1 as [|os pss nva exs iter rehash rebuild ps nvb HH IH HP HR|os pss nva exs nvb HH IH HS]; intros nv1 HE.
  - exists nv1. split; [done|]. constructor.
  - destruct (IH nva eq_refl) as (nv0 & H0 & H1). exists nv0. split; [done|]. eapply hist_train; [exact H1|exact HP|]. by rewrite HE.
  - destruct (IH (mkNV (nv_layers nva) (nv_rng nva) (nv_seeds nv1)) eq_refl) as (nv0 & H0 & H1). exists nv0. split; [done|].
    eapply hist_predict; [exact H1|]. destruct HS as [_ HS]. constructor; cbn; [done|]. by rewrite HE.
Qed.
Definition view (m : mem) (e : entry) : NetView := mkNV (en_now e) (m_rng m) (m_seeds m).
Definition called (e : entry) (o : net_op) (lvs : list LayerView) : entry := mkEntry (en_args e) (en_lls e) (en_start e) (en_calls e ++ [o]) lvs.

Lemma entry_rep E m n e : entry_ok E m n e -> net_rep m (nw_cowId n) (nw_layers n) (en_lls e) (view m e).
Proof. intros []. by apply held_rep. Qed.
Lemma entry_live E m n e : entry_ok E m n e -> live E m (nw_cowId n) n (view m e).
Proof. intros []. apply (held_live E m _ n (en_lls e)); try done. rewrite eo_net0. cbn. done. Qed.

(** The effect of a call on its own network. *)
Lemma entry_call E m n e o nv' m' : entry_ok E m n e -> ref_call E n (view m e) o = Ok nv' ->
  net_rep m' (nw_cowId n) (nw_layers n) (en_lls e) nv' -> entry_ok E m' n (called e o (nv_layers nv')).
Proof.
  intros [Hnet HH HL HS HB Hnum (cfg & HC & HSh) HZ HY] RC R'.
  assert (Hn : nw_num n = Z.of_nat (length (nv_layers (view m e)))) by (rewrite Hnet; done).
  destruct (call_shape E n (Z.to_nat (na_batch (en_args e))) cfg (view m e) o nv' Hn HSh HZ RC) as (HSh' & Hlen & HZ').
  constructor; cbn [called en_args en_lls en_start en_calls en_now]; try done.
  - by apply held_rep in R' as [? _].
  - cbn in Hlen. by rewrite Hlen.
  - by exists cfg.
  - destruct HY as (nv0 & nv1 & pss & H0 & H1 & HI).
    destruct (history_seeds _ _ _ _ _ _ _ _ HI (view m e)) as (nv2 & H2 & HI2); [done|]. rewrite H0 in H2.
    destruct o as [exs iter rehash rebuild|exs]; cbn [ref_call] in RC; binv RC as [x nv3] E1; apply Ok_inj in RC as <-.
    + rewrite Hnet in E1. cbn [nw_num nw_sparsity nw_lr] in E1.
      eapply process_spec in E1 as (HT & _); [|exact Hnum|exact HSh]. rewrite Z2Nat.id in HT by done.
      destruct (call_history E (na_num (en_args e)) (na_sizes (en_args e)) (na_types (en_args e)) (na_batch (en_args e)) (na_input (en_args e)) (na_k (en_args e)) (na_l (en_args e)) (na_rp (en_args e)) (na_sparsity (en_args e)) (na_lr (en_args e)) exs iter rehash rebuild (view m e) (nv_layers nv3)) as (ps & HP & HR).
      * eapply cfg_shape; [exact HC|exact HSh|done].
      * done.
      * done.
      * exists nv2, nv3, (pss ++ [ps]). split; [done|]. split; [done|]. by eapply hist_train.
    + rewrite Hnet in E1. cbn [nw_num nw_sparsity] in E1. apply predict_spec in E1 as (NS & _); [|done].
      exists nv2, nv3, pss. split; [done|]. split; [done|]. by eapply hist_predict.
Qed.

Lemma entry_new E a m n m' : e_LoadWeight E = false -> dims_ok E (na_num a) (na_sizes a) (na_batch a) (na_input a) ->
  make_network E a m = Ok (n, m') ->
  extends m m' /\ exists lls lvs, entry_ok E m' n (mkEntry a lls lvs [] lvs) /\ Forall (fresh_lay m) lls.
Proof.
  intros HL HD HN. pose proof (refines_Ok _ _ _ n m' (network_New_gen E (na_cow a) (na_num a) (na_batch a) (na_input a) (na_sizes a) (na_types a) (na_lr a) (na_k a) (na_l a) (na_rp a) (na_sparsity a) m HL HD) HN) as (nv & RN & (arr & Hn) & Hnum & X & lls & R & O & SP & FR).
  split; [done|]. exists lls, (nv_layers nv). split; [|done]. subst n. cbn [nw_num nw_layers] in *.
  apply net_new_shape in RN as (cfg & HC & HS & _ & HNW).
  constructor; cbn [en_args en_lls en_start en_calls en_now nw_cowId nw_layers]; try done.
  - by apply held_rep in R as [? _].
  - apply HD.
  - by exists cfg.
  - apply Forall_lookup. intros j lv Hlv. destruct (Forall2_lookup_r _ _ _ _ _ HS Hlv) as (cc & Hc & _).
    destruct (HC _ _ Hc) as (size & prev & ty & kj & lj & rj & _ & A1 & A2 & A3 & _ & _ & A4). eapply new_settled. by eapply HNW.
  - exists nv, nv, []. split; [done|]. split; [done|]. constructor.
Qed.

Lemma entry_extends E m m' n e : extends m m' -> entry_ok E m n e -> entry_ok E m' n e.
Proof.
  intros X [H1 (H2 & H3 & H4) H5 H6 H7 H8 H9 H10 H11]. constructor; try done. split; [|split; [done|]].
  - destruct X as (_ & _ & _ & _ & _ & _ & _ & _ & _ & X). by eapply prefix_lookup.
  - intros. eapply extends_layer; [done|]. eauto.
Qed.
Lemma entry_held E m m' n e : entry_ok E m n e -> held m' (nw_cowId n) (nw_layers n) (en_lls e) (en_now e) -> entry_ok E m' n e.
Proof. intros [] H. by constructor. Qed.

(** One step. *)
Lemma step_ok E m ns es s ns' m' : e_LoadWeight E = false -> sys_ok E m ns es -> sizes_fit E [s] -> sys_step E ns s m = Ok (ns', m') ->
  exists es', sys_ok E m' ns' es' /\
    match s with
    | SysNew a => exists n lls lvs, make_network E a m = Ok (n, m') /\ ns' = ns ++ [n] /\ es' = es ++ [mkEntry a lls lvs [] lvs]
    | SysCall i o => ns' = ns /\ match es !! i with Some e => exists lvs, es' = <[i := called e o lvs]> es | None => es' = es end
    end.
Proof.
  intros HL [HF HA] HD H. pose proof (Forall2_length _ _ _ HF) as Hlen. destruct s as [a|i o]; cbn [sys_step] in H.
  - apply bindM_inv in H as (n & m1 & HN & HR). injection HR as <- ->.
    destruct (entry_new E a m n m' HL (HD a ltac:(by left)) HN) as (X & lls & lvs & EO & FR).
    exists (es ++ [mkEntry a lls lvs [] lvs]). split; [|eauto 10]. split.
    + apply Forall2_app; [|by constructor]. eapply Forall2_impl; [exact HF|]. intros. by eapply entry_extends.
    + assert (HN' : forall j e, es !! j = Some e -> far (en_lls e) lls).
      { intros j e Hj. destruct (Forall2_lookup_r _ _ _ _ _ HF Hj) as (n0 & _ & EO0). eapply fresh_far; [apply EO0|done]. }
      intros i j e e' [Hi|[-> ->]]%snoc_cases [Hj|[-> ->]]%snoc_cases Hij; [by eapply HA|by eapply HN'|apply far_sym; by eapply HN'|done].
  - destruct (ns !! i) as [n|] eqn:Hn.
    2: { injection H as <- <-. exists es. split; [done|]. split; [done|]. apply lookup_ge_None in Hn.
         by rewrite lookup_ge_None_2 by lia. }
    apply bindM_inv in H as (n1 & m1 & HC & HR). injection HR as <- ->.
    destruct (Forall2_lookup_l _ _ _ _ _ HF Hn) as (e & He & EO). rewrite He.
    set (Q := fun x : Network * entry * nat => x.2 <> i /\ ns !! x.2 = Some x.1.1 /\ es !! x.2 = Some x.1.2).
    set (P := fun m => forall x, Q x -> held m (nw_cowId x.1.1) (nw_layers x.1.1) (en_lls x.1.2) (en_now x.1.2)).
    assert (ST : Stable (en_lls e) P).
    { apply all_stable. intros [[n0 e0] j] (Q1 & Q2 & Q3). cbn [fst snd] in *. apply far_stable. eapply (HA i j); [done..|congruence]. }
    assert (HP : P m).
    { intros [[n0 e0] j] (Q1 & Q2 & Q3). cbn [fst snd] in *. eapply (eo_held E). eapply Forall2_lookup_lr; done. }
    pose proof (call_keeps E m (nw_cowId n) n (view m e) o (en_lls e) P ST HP eq_refl (entry_rep _ _ _ _ EO) (eo_lays _ _ _ _ EO) (eo_spare _ _ _ _ EO)) as RF.
    destruct (refines_Ok _ _ _ _ _ RF HC) as (nv' & RC & -> & R' & HP').
    exists (<[i := called e o (nv_layers nv')]> es). split.
    2: { split; [by apply list_insert_id|]. eauto. }
    split.
    + rewrite (list_insert_id ns i n Hn). apply Forall2_same_length_lookup_2; [by rewrite insert_length|].
      intros j n0 e0 Hj He0. destruct (decide (j = i)) as [->|Hne].
      * rewrite list_lookup_insert in He0 by (by eapply lookup_lt_Some). injection He0 as <-. rewrite Hn in Hj. injection Hj as <-.
        by eapply entry_call.
      * rewrite list_lookup_insert_ne in He0 by done. eapply entry_held; [eapply Forall2_lookup_lr; done|].
        exact (HP' (n0, e0, j) (conj Hne (conj Hj He0))).
    + assert (HI : forall j e0, <[i := called e o (nv_layers nv')]> es !! j = Some e0 -> exists e1, es !! j = Some e1 /\ en_lls e1 = en_lls e0).
      { intros j e0 H0. destruct (decide (j = i)) as [->|Hne].
        - rewrite list_lookup_insert in H0 by (by eapply lookup_lt_Some). injection H0 as <-. by exists e.
        - rewrite list_lookup_insert_ne in H0 by done. by exists e0. }
      intros j1 j2 e1 e2 H1 H2 Hne. destruct (HI _ _ H1) as (a1 & A1 & <-). destruct (HI _ _ H2) as (a2 & A2 & <-). by eapply (HA j1 j2).
Qed.

(** Many steps: every network keeps its place, and its calls are the ones made on it. *)
Lemma run_ok E ss : forall m ns es ns' m', e_LoadWeight E = false -> sys_ok E m ns es -> sizes_fit E ss -> sys_run E ns ss m = Ok (ns', m') ->
  exists es', sys_ok E m' ns' es' /\ forall i n e, ns !! i = Some n -> es !! i = Some e ->
    ns' !! i = Some n /\ exists e', es' !! i = Some e' /\ en_args e' = en_args e /\ en_start e' = en_start e /\ en_calls e' = en_calls e ++ own_calls i ss.
Proof.
  induction ss as [|s ss IH]; intros m ns es ns' m' HL HO HD H.
  - injection H as <- <-. exists es. split; [done|]. intros i n e Hn He. split; [done|]. exists e. cbn. by rewrite app_nil_r.
  - unfold sys_run in H. cbn [mfold] in H. apply bindM_inv in H as (ns1 & m1 & H1 & H).
    destruct (step_ok E m ns es s ns1 m1 HL HO) as (es1 & HO1 & HS); [|done|].
    { intros a Ha%elem_of_list_singleton. subst s. apply HD. by left. }
    destruct (IH m1 ns1 es1 ns' m' HL HO1) as (es' & HO' & HE); [|done|].
    { intros a Ha. apply HD. by right. }
    exists es'. split; [done|]. intros i n e Hn He.
    assert (HS1 : ns1 !! i = Some n /\ exists e1, es1 !! i = Some e1 /\ en_args e1 = en_args e /\ en_start e1 = en_start e /\ en_calls e1 = en_calls e ++ own_calls i [s]).
    { destruct s as [a|j o].
      - destruct HS as (n1 & lls & lvs & _ & -> & ->). split; [by apply lookup_app_l_Some|]. exists e. split; [by apply lookup_app_l_Some|]. cbn. by rewrite app_nil_r.
      - destruct HS as [-> HS]. split; [done|]. destruct (decide (j = i)) as [->|Hne].
        + rewrite He in HS. destruct HS as (lvs & ->). eexists. split; [apply list_lookup_insert; by eapply lookup_lt_Some|]. cbn. by rewrite bool_decide_true.
        + exists e. split; [|cbn; rewrite bool_decide_false by done; cbn; by rewrite app_nil_r].
          destruct (es !! j) as [ej|]; [destruct HS as (lvs & ->); by rewrite list_lookup_insert_ne|by subst]. }
    destruct HS1 as (Hn1 & e1 & He1 & A1 & A2 & A3). destruct (HE _ _ _ Hn1 He1) as (B0 & e' & He' & B1 & B2 & B3).
    split; [done|]. exists e'. split; [done|]. split; [congruence|]. split; [congruence|]. rewrite B3, A3, <- app_assoc. f_equal.
    change (s :: ss) with ([s] ++ ss). unfold own_calls. by rewrite omap_app.
Qed.
Lemma sys_ok_nil E m : sys_ok E m [] [].
Proof. split; [constructor|]. intros i j e e' H. by rewrite lookup_nil in H. Qed.

(** * The theorems *)
Theorem others_unchanged E ss m ns m1 s ns' m2 i n : e_LoadWeight E = false -> sizes_fit E (ss ++ [s]) ->
  sys_run E [] ss m = Ok (ns, m1) -> sys_step E ns s m1 = Ok (ns', m2) -> ns !! i = Some n -> not_on i s ->
  ns' !! i = Some n /\ exists nv nv', live E m1 (nw_cowId n) n nv /\ live E m2 (nw_cowId n) n nv' /\ nv_layers nv' = nv_layers nv.
Proof.
  intros HL HD HR HS Hn Hi.
  destruct (run_ok E ss m [] [] ns m1 HL (sys_ok_nil E m)) as (es & HO & _); [|done|].
  { intros a Ha. apply HD. apply elem_of_app. by left. }
  destruct (step_ok E m1 ns es s ns' m2 HL HO) as (es' & HO' & HH); [|done|].
  { intros a Ha. apply HD. apply elem_of_app. by right. }
  destruct HO as [HF HA]. destruct (Forall2_lookup_l _ _ _ _ _ HF Hn) as (e & He & EO).
  assert (HS1 : ns' !! i = Some n /\ es' !! i = Some e).
  { destruct s as [a|j o].
    - destruct HH as (n1 & lls & lvs & _ & -> & ->). split; by apply lookup_app_l_Some.
    - destruct HH as [-> HH]. split; [done|]. cbn in Hi.
      destruct (es !! j) as [ej|]; [destruct HH as (lvs & ->); by rewrite list_lookup_insert_ne|by subst]. }
  destruct HS1 as [Hn' He']. split; [done|]. destruct HO' as [HF' _].
  pose proof (Forall2_lookup_lr _ _ _ _ _ _ HF' Hn' He') as EO'.
  exists (view m1 e), (view m2 e). split; [by apply entry_live|]. split; [by apply entry_live|]. done.
Qed.

Theorem own_history E ss0 a ss1 m ns0 m0 n m1 ns2 m2 : e_LoadWeight E = false -> sizes_fit E (ss0 ++ SysNew a :: ss1) ->
  sys_run E [] ss0 m = Ok (ns0, m0) -> make_network E a m0 = Ok (n, m1) -> sys_run E (ns0 ++ [n]) ss1 m1 = Ok (ns2, m2) ->
  ns2 !! length ns0 = Some n /\ exists nv nv0 nv' pss, live E m1 (na_cow a) n nv /\ live E m2 (na_cow a) n nv' /\
    nv_layers nv0 = nv_layers nv /\ history E (na_batch a) (na_sparsity a) (na_lr a) nv0 (own_calls (length ns0) ss1) pss nv'.
Proof.
  intros HL HD HR HN HR1.
  destruct (run_ok E ss0 m [] [] ns0 m0 HL (sys_ok_nil E m)) as (es & HO & _); [|done|].
  { intros x Hx. apply HD. apply elem_of_app. by left. }
  destruct (step_ok E m0 ns0 es (SysNew a) (ns0 ++ [n]) m1 HL HO) as (es' & HO' & HH).
  { intros x Hx. apply HD. apply elem_of_app. right. apply elem_of_list_singleton in Hx as ->. by left. }
  { cbn [sys_step]. by rewrite (bindM_Ok _ _ _ _ _ HN). }
  destruct HH as (n' & lls & lvs & HN' & Hns & ->). clear HN'. apply app_inj_2 in Hns as [_ Hns]; [|done]. injection Hns as <-.
  destruct HO as [HF _]. pose proof (Forall2_length _ _ _ HF) as Hlen.
  set (e0 := mkEntry a lls lvs [] lvs) in *.
  assert (Hn : (ns0 ++ [n]) !! length ns0 = Some n) by (by apply list_lookup_middle).
  assert (He : (es ++ [e0]) !! length ns0 = Some e0) by (rewrite Hlen; by apply list_lookup_middle).
  destruct (run_ok E ss1 m1 _ _ ns2 m2 HL HO') as (es2 & HO2 & HE); [|done|].
  { intros x Hx. apply HD. apply elem_of_app. right. by right. }
  destruct (HE _ _ _ Hn He) as (Hn2 & e2 & He2 & A1 & A2 & A3). split; [done|].
  destruct HO' as [HF' _]. destruct HO2 as [HF2 _].
  pose proof (Forall2_lookup_lr _ _ _ _ _ _ HF' Hn He) as EO. pose proof (Forall2_lookup_lr _ _ _ _ _ _ HF2 Hn2 He2) as EO2.
  pose proof (eo_net _ _ _ _ EO) as Hc. apply (f_equal nw_cowId) in Hc. cbn in Hc.
  destruct (eo_history _ _ _ _ EO2) as (nv0 & nv1 & pss & B1 & B2 & HY). rewrite A1, A3 in HY. cbn in HY.
  destruct (history_seeds _ _ _ _ _ _ _ _ HY (view m2 e2)) as (nv3 & H3 & HY3); [by rewrite B2|].
  exists (view m1 e0), nv3, (view m2 e2), pss. rewrite <- Hc. split; [by apply entry_live|]. split; [by apply entry_live|].
  split; [|done]. rewrite H3, B1, A2. done.
Qed.

Lemma refines_two {A B X} (o1 : res (A * mem)) (o2 : res (B * mem)) (r : res X) (Q1 : X -> A -> mem -> Prop) (Q2 : X -> B -> mem -> Prop) :
  refines o1 r Q1 -> refines o2 r Q2 ->
  match o1 with Ok (a, m1) => exists b m2 x, o2 = Ok (b, m2) /\ Q1 x a m1 /\ Q2 x b m2 | Panic p => o2 = Panic p end.
Proof.
  destruct r as [x|p]; cbn.
  - intros (a & m1 & -> & H1) (b & m2 & -> & H2). eauto 10.
  - by intros -> ->.
Qed.
Theorem same_content E m1 c1 n1 m2 c2 n2 nv : live E m1 c1 n1 nv -> live E m2 c2 n2 nv -> nw_sparsity n1 = nw_sparsity n2 -> nw_lr n1 = nw_lr n2 ->
  (forall exs, match network_PredictClass E c1 n1 exs m1 with
     | Ok ((count, _), m1') => exists m2' nv', network_PredictClass E c2 n2 exs m2 = Ok ((count, n2), m2') /\ live E m1' c1 n1 nv' /\ live E m2' c2 n2 nv'
     | Panic p => network_PredictClass E c2 n2 exs m2 = Panic p
     end) /\
  (forall exs iter rehash rebuild, match network_ProcessInput E c1 n1 exs iter rehash rebuild m1 with
     | Ok ((counts, _), m1') => exists m2' nv', network_ProcessInput E c2 n2 exs iter rehash rebuild m2 = Ok ((counts, n2), m2') /\ live E m1' c1 n1 nv' /\ live E m2' c2 n2 nv'
     | Panic p => network_ProcessInput E c2 n2 exs iter rehash rebuild m2 = Panic p
     end).
Proof.
  intros L1 L2 HS HR. assert (HN : nw_num n1 = nw_num n2) by (destruct L1 as (_ & -> & _), L2 as (_ & -> & _); done).
  split.
  - intros exs. pose proof (live_predict E m2 c2 n2 nv exs L2) as R2. rewrite <- HS, <- HN in R2.
    pose proof (refines_two _ _ _ _ _ (live_predict E m1 c1 n1 nv exs L1) R2) as H.
    destruct (network_PredictClass E c1 n1 exs m1) as [[[cnt n'] m1']|p]; [|done].
    destruct H as ([cnt2 n2'] & m2' & [cx nv'] & H & [[= -> ->] HA] & [[= -> ->] HB]). eauto 10.
  - intros exs iter rehash rebuild. pose proof (live_process E m2 c2 n2 nv exs iter rehash rebuild L2) as R2. rewrite <- HS, <- HN, <- HR in R2.
    pose proof (refines_two _ _ _ _ _ (live_process E m1 c1 n1 nv exs iter rehash rebuild L1) R2) as H.
    destruct (network_ProcessInput E c1 n1 exs iter rehash rebuild m1) as [[[cnt n'] m1']|p]; [|done].
    destruct H as ([cnt2 n2'] & m2' & [cx nv'] & H & [[= -> ->] HA] & [[= -> ->] HB]). eauto 10.
Qed.
