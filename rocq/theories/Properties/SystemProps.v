(** Property C82: several networks in one program. *)
From Verif.Spec Require Import SystemSpec.
From Verif.Proofs Require Import MemProofs NetNew NetLive SystemProofs.
From Verif.Properties Require Import NetProps.
Local Open Scope Z_scope.

(** * C82 Networks do not disturb each other *)

(** Making another network, or calling another network, changes no part of a network: not its weights, biases and
    moments, not its tables, hash functions and orders, not its activations. *)
Theorem C82_others : forall E ss m ns m1 s ns' m2 i n, e_LoadWeight E = false -> sizes_fit E (ss ++ [s]) ->
  sys_run E [] ss m = Ok (ns, m1) -> sys_step E ns s m1 = Ok (ns', m2) -> ns !! i = Some n -> not_on i s ->
  ns' !! i = Some n /\ exists nv nv', live E m1 (nw_cowId n) n nv /\ live E m2 (nw_cowId n) n nv' /\ nv_layers nv' = nv_layers nv.
Proof. exact others_unchanged. Qed.
Print Assumptions C82_others.

(** Whatever else the program does between, the parameters of a network are those its own calls give. *)
Theorem C82_history : forall E ss0 a ss1 m ns0 m0 n m1 ns2 m2, e_LoadWeight E = false -> sizes_fit E (ss0 ++ SysNew a :: ss1) ->
  sys_run E [] ss0 m = Ok (ns0, m0) -> make_network E a m0 = Ok (n, m1) -> sys_run E (ns0 ++ [n]) ss1 m1 = Ok (ns2, m2) ->
  ns2 !! length ns0 = Some n /\ exists nv nv0 nv' pss, live E m1 (na_cow a) n nv /\ live E m2 (na_cow a) n nv' /\
    nv_layers nv0 = nv_layers nv /\ history E (na_batch a) (na_sparsity a) (na_lr a) nv0 (own_calls (length ns0) ss1) pss nv'.
Proof. exact own_history. Qed.
Print Assumptions C82_history.

(** What a call returns, and what it makes of its network, depends on the content of the network and the random source
    alone: not on what else is in memory, on where the network is, or on its id. *)
Theorem C82_same : forall E m1 c1 n1 m2 c2 n2 nv, live E m1 c1 n1 nv -> live E m2 c2 n2 nv ->
  nw_sparsity n1 = nw_sparsity n2 -> nw_lr n1 = nw_lr n2 ->
  (forall exs, match network_PredictClass E c1 n1 exs m1 with
     | Ok ((count, _), m1') => exists m2' nv', network_PredictClass E c2 n2 exs m2 = Ok ((count, n2), m2') /\ live E m1' c1 n1 nv' /\ live E m2' c2 n2 nv'
     | Panic p => network_PredictClass E c2 n2 exs m2 = Panic p
     end) /\
  (forall exs iter rehash rebuild, match network_ProcessInput E c1 n1 exs iter rehash rebuild m1 with
     | Ok ((counts, _), m1') => exists m2' nv', network_ProcessInput E c2 n2 exs iter rehash rebuild m2 = Ok ((counts, n2), m2') /\ live E m1' c1 n1 nv' /\ live E m2' c2 n2 nv'
     | Panic p => network_ProcessInput E c2 n2 exs iter rehash rebuild m2 = Panic p
     end).
Proof. exact same_content. Qed.
Print Assumptions C82_same.

(** Two networks with different ids, made one after the other and used alternately. *)
Definition sys_a (c : Z) : new_args := mkArgs c 2 [3; 2] [ReLU; Softmax] 2 net_half 4 [1; 1] [2; 2] [2; 2] [fone; net_half; fone; fone].
Definition sys_ss : list sys_op :=
  [SysNew (sys_a 1); SysCall 0 (OpTrain net_exs 0 true true); SysNew (sys_a 7); SysCall 1 (OpTrain net_exs 0 false true); SysCall 0 (OpPredict net_exs)].
Lemma sys_fit : sizes_fit netE (sys_ss ++ [SysCall 1 (OpTrain net_exs 1 true true)]).
Proof.
  intros a Ha. unfold sys_ss in Ha. cbn [app] in Ha. rewrite !elem_of_cons, elem_of_nil in Ha. destruct_or! Ha; try done; injection Ha as ->; exact net_dims.
Qed.
Lemma fine_Ok {A} (r : res A) : fine r = true -> exists x, r = Ok x.
Proof. destruct r as [x|]; [by exists x|done]. Qed.
Lemma ids_two (ns : list Network) : map nw_cowId ns = [1; 7] -> exists n n1, ns = [n; n1] /\ nw_cowId n = 1 /\ nw_cowId n1 = 7.
Proof. destruct ns as [|n [|n1 [|]]]; try discriminate. intros [= H1 H2]. by exists n, n1. Qed.
Definition sys_ids (r : res (list Network * mem)) : list Z := match r with Ok (ns, _) => map nw_cowId ns | Panic _ => [] end.
Lemma sys_split E ns ss s m x : sys_run E ns (ss ++ [s]) m = Ok x -> exists ns1 m1 ns2 m2, sys_run E ns ss m = Ok (ns1, m1) /\ sys_step E ns1 s m1 = Ok (ns2, m2).
Proof.
  destruct x as [ns' m']. intros H. unfold sys_run in H. rewrite MemProofs.mfold_app in H. apply bindM_inv in H as (ns1 & m1 & H1 & H).
  cbn [mfold] in H. apply bindM_inv in H as (ns2 & m2 & H & _). by exists ns1, m1, ns2, m2.
Qed.
Lemma sys_head E a ss m x : sys_run E [] (SysNew a :: ss) m = Ok x -> exists n m1 ns2 m2, make_network E a m = Ok (n, m1) /\ sys_run E [n] ss m1 = Ok (ns2, m2).
Proof.
  destruct x as [ns' m']. intros H. unfold sys_run in H. cbn [mfold] in H. apply bindM_inv in H as (ns2 & m2 & H1 & H2).
  cbn [sys_step] in H1. apply bindM_inv in H1 as (n & m1 & HN & HR). injection HR as <- <-. by exists n, m1, ns', m'.
Qed.
Example C82_others_ex : exists ns m1 ns' m2 n n1, sys_run netE [] sys_ss net0 = Ok (ns, m1) /\
  sys_step netE ns (SysCall 1 (OpTrain net_exs 1 true true)) m1 = Ok (ns', m2) /\
  ns = [n; n1] /\ nw_cowId n = 1 /\ nw_cowId n1 = 7 /\ not_on 0 (SysCall 1 (OpTrain net_exs 1 true true)).
Proof.
  assert (H : fine (sys_run netE [] (sys_ss ++ [SysCall 1 (OpTrain net_exs 1 true true)]) net0) = true) by (vm_compute; reflexivity).
  assert (HI : sys_ids (sys_run netE [] sys_ss net0) = [1; 7]) by (vm_compute; reflexivity).
  apply fine_Ok in H as [x H]. apply sys_split in H as (ns & m1 & ns' & m2 & E1 & E2).
  rewrite E1 in HI. unfold sys_ids in HI. apply ids_two in HI as (n & n1 & Hns & H1 & H2).
  exists ns, m1, ns', m2, n, n1. split; [exact E1|]. split; [exact E2|]. split; [exact Hns|]. split; [exact H1|]. split; [exact H2|]. discriminate.
Qed.
(** The first of them, with the steps after it. *)
Example C82_history_ex : exists n m1 ns2 m2, make_network netE (sys_a 1) net0 = Ok (n, m1) /\ sys_run netE [n] (tail sys_ss) m1 = Ok (ns2, m2) /\
  own_calls 0 (tail sys_ss) = [OpTrain net_exs 0 true true; OpPredict net_exs].
Proof.
  assert (H : fine (sys_run netE [] sys_ss net0) = true) by (vm_compute; reflexivity).
  apply fine_Ok in H as [x H]. apply sys_head in H as (n & m1 & ns2 & m2 & H1 & H2).
  exists n, m1, ns2, m2. split; [exact H1|]. split; [exact H2|reflexivity].
Qed.
(** A network with id 1 made in an empty memory, and one with id 7 made in a memory with other things in it. *)
Definition net0' : mem := upd_f (fun _ => [[fone]; []]) (upd_la (fun _ => [[]; []]) net0).
Lemma same_made E a c2 m1 m2 n1 m1' : e_LoadWeight E = false -> dims_ok E (na_num a) (na_sizes a) (na_batch a) (na_input a) ->
  m_norm m2 = m_norm m1 -> m_npos m2 = m_npos m1 -> m_rng m2 = m_rng m1 -> m_seeds m2 = m_seeds m1 ->
  make_network E a m1 = Ok (n1, m1') ->
  exists n2 m2' nv, network_New E c2 (na_num a) (na_sizes a) (na_types a) (na_batch a) (na_lr a) (na_input a) (na_k a) (na_l a) (na_rp a) (na_sparsity a) m2 = Ok (n2, m2') /\
    live E m1' (na_cow a) n1 nv /\ live E m2' c2 n2 nv /\ nw_sparsity n1 = nw_sparsity n2 /\ nw_lr n1 = nw_lr n2 /\ nw_cowId n1 = na_cow a /\ nw_cowId n2 = c2.
Proof.
  intros HL HD H1 H2 H3 H4 HN.
  pose proof (network_New_ref E (na_cow a) (na_num a) (na_batch a) (na_input a) (na_sizes a) (na_types a) (na_lr a) (na_k a) (na_l a) (na_rp a) (na_sparsity a) m1 HL HD) as R1.
  pose proof (network_New_ref E c2 (na_num a) (na_batch a) (na_input a) (na_sizes a) (na_types a) (na_lr a) (na_k a) (na_l a) (na_rp a) (na_sparsity a) m2 HL HD) as R2.
  rewrite H1, H2, H3, H4 in R2. pose proof (refines_two _ _ _ _ _ R1 R2) as H. unfold make_network in HN. rewrite HN in H.
  destruct H as (n2 & m2' & nv & E2 & ((a1 & ->) & L1 & _) & ((a2 & ->) & L2 & _)).
  eexists _, _, nv. split; [exact E2|]. done.
Qed.
Example C82_same_ex : exists n1 m1 n2 m2 nv, make_network netE (sys_a 1) net0 = Ok (n1, m1) /\ make_network netE (sys_a 7) net0' = Ok (n2, m2) /\
  live netE m1 1 n1 nv /\ live netE m2 7 n2 nv /\ nw_sparsity n1 = nw_sparsity n2 /\ nw_lr n1 = nw_lr n2 /\ n1 <> n2.
Proof.
  assert (H : fine (make_network netE (sys_a 1) net0) = true) by (vm_compute; reflexivity). apply fine_Ok in H as [[n1 m1] H].
  destruct (same_made netE (sys_a 1) 7 net0 net0' n1 m1 eq_refl net_dims eq_refl eq_refl eq_refl eq_refl H) as (n2 & m2 & nv & E2 & L1 & L2 & HS & HR & HC1 & HC2).
  exists n1, m1, n2, m2, nv. split; [exact H|]. split; [exact E2|]. split; [exact L1|]. split; [exact L2|]. split; [exact HS|]. split; [exact HR|].
  intros He. rewrite He, HC2 in HC1. discriminate HC1.
Qed.
