(** The query of a layer, for every memory and cowId. *)
From Verif.Proofs Require Export Select3 Pres.
From stdpp Require Import sorting.
From Coq Require Import Lia ZifyBool ZifyNat.
Local Open Scope Z_scope.

Lemma na_shape_lookup m m' l ns : na_shape m' = na_shape m -> m_na m !! l = Some ns ->
  exists ns', m_na m' !! l = Some ns' /\ length ns' = length ns.
Proof.
  unfold na_shape. intros H Hl. apply (f_equal (fun x => x !! l)) in H. rewrite !list_lookup_fmap, Hl in H.
  destruct (m_na m' !! l) as [ns'|]; [|done]. injection H as ?. eauto.
Qed.

Ltac inv_load H x Hx := let mm := fresh "mm" in apply bindM_inv in H as (x & mm & Hx & H); apply load_inv in Hx as [Hx ->].
Ltac inv_bind H x m1 H1 := apply bindM_inv in H as (x & m1 & H1 & H).
Lemma lift_inv {A} (r : res A) m a m' : lift r m = Ok (a, m') -> r = Ok a /\ m' = m.
Proof. unfold lift. destruct r; [|done]. by intros [= -> ->]. Qed.

Lemma activate_node_inv cowId la cur i next mv p m next' mv' m' :
  activate_node cowId la cur i (next, mv) p m = Ok ((next', mv'), m') ->
  map iv_index next' = map iv_index next ++ [iv_index p] /\ na_shape m' = na_shape m /\
  exists ns, m_na m !! l_nodes la = Some ns /\ 0 <= iv_index p < Z.of_nat (length ns).
Proof.
  unfold activate_node. intros H. inv_load H ns Hns. inv_bind H n m1 H1. apply lift_inv in H1 as [H1 ->].
  inv_bind H r m1 H2. destruct r as [value n']. apply bindM_inv in H as (ns1 & m2 & H3 & H). apply load_inv in H3 as [H3 ->].
  inv_bind H ns' m3 H4. apply lift_inv in H4 as [H4 ->]. inv_bind H u mm4 H5. injection H as <- <- <-.
  split; [by rewrite map_app|]. apply sget_Ok in H1 as [H1 H1'].
  assert (Hp : m_na m1 = m_na m) by (eapply pres_GetActivation; [..|exact H2]; done).
  split.
  - rewrite <- Hp in *. transitivity (na_shape m1); [|unfold na_shape; by rewrite Hp]. destruct u. by eapply pres_store_na.
  - exists ns. split; [done|]. apply lookup_lt_Some in H1'. lia.
Qed.

Lemma softmax_node_inv E cowId la i mx next p m next' m' :
  softmax_node E cowId la i mx next p m = Ok (next', m') ->
  map iv_index next' = map iv_index next ++ [iv_index p] /\ na_shape m' = na_shape m.
Proof.
  unfold softmax_node. intros H. inv_load H ns Hns. inv_bind H n m1 H1. apply lift_inv in H1 as [H1 ->].
  inv_bind H n' m1 H2. apply bindM_inv in H as (ns1 & m2 & H3 & H). apply load_inv in H3 as [H3 ->].
  inv_bind H ns' m3 H4. apply lift_inv in H4 as [H4 ->]. inv_bind H u mm4 H5.
  inv_bind H x m5 H6. inv_bind H u' m6 H7. injection H as <- <-.
  split; [by rewrite map_app|].
  assert (Hp : m_na m1 = m_na m) by (eapply pres_SetlastActivation; [..|exact H2]; done).
  assert (H56 : na_shape m6 = na_shape mm4).
  { transitivity (na_shape m5).
    - revert H7. unfold norm_set. destruct (l_norm la); [|done]. intros H7. eapply (pres_bind na_shape); [..|exact H7]; pres_tac.
    - revert H6. unfold norm_get. destruct (l_norm la); [|done]. intros H6. eapply (pres_bind na_shape); [..|exact H6]; pres_tac. }
  rewrite H56. transitivity (na_shape m1); [|unfold na_shape; by rewrite Hp]. destruct u. by eapply pres_store_na.
Qed.

Lemma activate_all_inv cowId la cur i ps : forall next mv m next' mv' m' ns,
  mfold (activate_node cowId la cur i) (next, mv) ps m = Ok ((next', mv'), m') ->
  m_na m !! l_nodes la = Some ns ->
  map iv_index next' = map iv_index next ++ map iv_index ps /\ na_shape m' = na_shape m /\
  Forall (inr (Z.of_nat (length ns))) (map iv_index ps).
Proof.
  induction ps as [|p ps IH]; intros next mv m next' mv' m' ns; cbn [mfold map].
  - intros [= <- <- <-] _. rewrite app_nil_r. done.
  - intros H Hns. inv_bind H r m1 H1. destruct r as [nx1 mv1].
    apply activate_node_inv in H1 as (E1 & S1 & ns0 & Hns0 & Hr). rewrite Hns in Hns0. injection Hns0 as <-.
    destruct (na_shape_lookup _ _ _ _ S1 Hns) as (ns1 & Hns1 & Hlen).
    destruct (IH _ _ _ _ _ _ _ H Hns1) as (E2 & S2 & HF). rewrite Hlen in HF.
    split; [rewrite E2, E1; by rewrite <- app_assoc|]. split; [congruence|]. apply Forall_cons. done.
Qed.
Lemma softmax_all_inv E cowId la i mx ps : forall next m next' m',
  mfold (softmax_node E cowId la i mx) next ps m = Ok (next', m') ->
  map iv_index next' = map iv_index next ++ map iv_index ps.
Proof.
  induction ps as [|p ps IH]; intros next m next' m'; cbn [mfold map].
  - intros [= <- <-]. by rewrite app_nil_r.
  - intros H. inv_bind H r m1 H1. apply softmax_node_inv in H1 as (E1 & _).
    rewrite (IH _ _ _ _ H), E1. by rewrite <- app_assoc.
Qed.

(** The same layer under another cowId. *)
Definition recow (c : Z) (la : Layer) : Layer :=
  mkLayer c (l_type la) (l_nodes la) (l_rand la) (l_norm la) (l_k la) (l_l la) (l_prev la)
    (l_tables la) (l_wta la) (l_min la) (l_srp la) (l_dwta la) (l_binIds la).
Lemma layer_select_recow E c la : layer_select E (recow c la) = layer_select E la.
Proof. reflexivity. Qed.

(** the memory up to new layers at the end *)
Definition same_but_layers (m m1 : mem) : Prop :=
  m_layer m `prefix_of` m_layer m1 /\ m1 = upd_layer (fun _ => m_layer m1) m.

Lemma layer_clone_inv c lp m l m1 la : m_layer m !! lp = Some la ->
  layer_cloneIfNeeded c lp m = Ok (l, m1) ->
  same_but_layers m m1 /\ m_layer m1 !! l = Some (recow c la).
Proof.
  intros Hla. unfold layer_cloneIfNeeded. rewrite (bindM_Ok _ _ _ _ _ (load_Ok _ _ _ _ Hla)).
  destruct (Z.eqb_spec (l_cowId la) c) as [<-|Hne].
  - intros [= <- <-]. split; [split; [done|by destruct m]|]. rewrite Hla. by destruct la.
  - unfold alloc. intros [= <- <-]. split; [split; [by apply prefix_app_r|by destruct m]|].
    cbn. rewrite lookup_app_r, Nat.sub_diag by lia. done.
Qed.

Lemma query_inv E c lp anpl li i label sp m in_ anpl' l' m' la ns :
  m_layer m !! lp = Some la -> m_na m !! l_nodes la = Some ns ->
  layer_Query E c lp anpl li i label sp m = Ok ((in_, anpl', l'), m') ->
  exists cur sel m1 m2, sget anpl li = Ok cur /\ same_but_layers m m1 /\
    layer_select E la ns cur label sp m1 = Ok ((sel, in_), m2) /\
    active_of anpl' li = (match sel with Some a => map iv_index a | None => active_of anpl li end) /\
    (forall k, k <> Z.to_nat (li + 1) -> anpl' !! k = anpl !! k) /\
    (na_shape m2 = na_shape m -> Forall (inr (Z.of_nat (length ns))) (active_of anpl' li)) /\ length anpl' = length anpl.
Proof.
  intros Hla Hns H. unfold layer_Query in H. inv_bind H l m1 H1.
  destruct (layer_clone_inv _ _ _ _ _ _ Hla H1) as [[Hpre Hsame] Hl]. clear H1.
  apply bindM_inv in H as (la1 & mx & [Hla1 ->]%load_inv & H). rewrite Hl in Hla1. injection Hla1 as <-.
  inv_bind H cur mx H1. apply lift_inv in H1 as [Hcur ->].
  apply bindM_inv in H as (ns1 & mx & [Hns1 ->]%load_inv & H).
  assert (ns1 = ns) as ->. { rewrite Hsame in Hns1. cbn in Hns1. congruence. }
  inv_bind H r m2 Hsel. destruct r as [sel in0]. rewrite layer_select_recow in Hsel.
  inv_bind H anpl1 mx H2. apply lift_inv in H2 as [H2 ->].
  inv_bind H next mx H3. apply lift_inv in H3 as [H3 ->].
  inv_bind H u m3 H4. inv_bind H r mm4 H5. destruct r as [next1 mx]. inv_bind H next2 m5 H6.
  inv_bind H anpl2 m6 H7. apply lift_inv in H7 as [H7 ->]. injection H as <- <- <- <-.
  exists cur, sel, m1, m2. split; [done|]. split; [done|]. split; [done|].
  apply sget_Ok in H3 as [Hi H3]. apply sset_Ok in H7 as [Hi2 ->].
  assert (H61 : map iv_index next2 = map iv_index next1).
  { cbn [recow l_type] in H6. destruct (is_softmax (l_type la)); [|by injection H6 as <- <-].
    apply softmax_all_inv in H6. by rewrite H6. }
  assert (Hlen : length anpl1 = length anpl).
  { destruct sel; [apply sset_Ok in H2 as [_ ->]; by rewrite insert_length|by injection H2 as ->]. }
  assert (H51 : map iv_index next1 = map iv_index next).
  { assert (G : forall ps nx mv m0 nx' mv' m0', mfold (activate_node c (recow c la) cur i) (nx, mv) ps m0 = Ok ((nx', mv'), m0') ->
      map iv_index nx' = map iv_index nx ++ map iv_index ps).
    { induction ps as [|p ps IH]; intros nx mv m0 nx' mv' m0'; cbn [mfold map].
      - intros [= <- <- <-]. by rewrite app_nil_r.
      - intros HH. inv_bind HH r m01 HH1. destruct r as [nx1 mv1]. apply activate_node_inv in HH1 as (E1 & _ & _).
        rewrite (IH _ _ _ _ _ _ HH), E1. by rewrite <- app_assoc. }
    apply G in H5. exact H5. }
  split_and!.
  - unfold active_of. rewrite list_lookup_insert by lia. cbn. rewrite H61, H51.
    destruct sel as [a|].
    + apply sset_Ok in H2 as [Hi3 ->]. rewrite list_lookup_insert in H3 by lia. by injection H3 as ->.
    + injection H2 as ->. by rewrite H3.
  - intros k Hk. rewrite list_lookup_insert_ne by done. destruct sel.
    + apply sset_Ok in H2 as [_ ->]. by rewrite list_lookup_insert_ne.
    + by injection H2 as ->.
  - intros Hsh. unfold active_of. rewrite list_lookup_insert by lia. cbn. rewrite H61, H51.
    assert (Hsh3 : na_shape m3 = na_shape m).
    { rewrite <- Hsh. destruct (is_softmax _); [|by injection H4 as <- <-]. revert H4. unfold norm_set.
      destruct (l_norm _); [|done]. intros H4. eapply (pres_bind na_shape); [..|exact H4]; pres_tac. }
    destruct (na_shape_lookup _ _ _ _ Hsh3 Hns) as (ns3 & Hns3 & Hl3).
    destruct (activate_all_inv _ _ _ _ _ _ _ _ _ _ _ _ H5 Hns3) as (_ & _ & HF). by rewrite Hl3 in HF.
  - by rewrite insert_length.
Qed.

Lemma layer_select_na E la ns cur label sp : pres m_na (layer_select E la ns cur label sp).
Proof. unfold layer_select, get_base, fread. pres_tac. Qed.

Lemma select_na_shape E la ns cur label sp m m1 r m2 : same_but_layers m m1 ->
  layer_select E la ns cur label sp m1 = Ok (r, m2) -> na_shape m2 = na_shape m.
Proof.
  intros [_ Hs] H. unfold na_shape. rewrite (layer_select_na _ _ _ _ _ _ _ _ _ H). by rewrite Hs.
Qed.
