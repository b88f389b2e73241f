(** The random stream never changes; only the position in it moves. *)
From Verif.Proofs Require Import BaseProofs SelectProofs NetLive.
From Verif.Spec Require Import LayerSpec NetRef.
From stdpp Require Import sorting.
Local Open Scope Z_scope.

Lemma draw_stream n g v g' : draw_below n g = (v, g') -> rstream g' = rstream g.
Proof. by intros [= _ <-]. Qed.
Lemma odd_stream g v g' : positiveOddRandomInt g = (v, g') -> rstream g' = rstream g.
Proof.
  unfold positiveOddRandomInt. destruct (rand_int g) as [n g1] eqn:Eg. apply draw_stream in Eg. by destruct (_ =? 0); intros [= _ <-].
Qed.
Lemma dh_stream log2 num n g d g' : dh_New log2 num n g = (d, g') -> rstream g' = rstream g.
Proof.
  unfold dh_New. destruct (positiveOddRandomInt g) as [a g1] eqn:E1. destruct (positiveOddRandomInt g1) as [b g2] eqn:E2.
  destruct (positiveOddRandomInt g2) as [c g3] eqn:E3. intros [= _ <-]. apply odd_stream in E1, E2, E3. congruence.
Qed.
Lemma wta_stream num n g t g' : wta_New num n g = Ok (t, g') -> rstream g' = rstream g.
Proof.
  unfold wta_New. intros H. binv H as nA E1. binv H as ix E2. binv H as [[nA' ix'] g1] E3. injection H as _ <-.
  refine (foldM_preserve (fun st => rstream st.2 = rstream g) _ _ _ _ _ _ E3); [|done].
  intros [[a b] g0] p [[a' b'] g2] Hg. cbn [snd] in *. unfold wta_shuffle_step. destruct (shuffle a g0) as [a2 g3] eqn:Es.
  intros H. binv H as b2 E4. injection H as _ _ <-. by rewrite (shuffle_rstream _ _ _ _ Es).
Qed.
Lemma dwta_stream log2 num n g t g' : dwta_New log2 num n g = Ok (t, g') -> rstream g' = rstream g.
Proof.
  unfold dwta_New. intros H. binv H as nA E1. binv H as ix E2. binv H as [[nA' [ix' ps']] g1] E3.
  destruct (dh_New log2 num n g1) as [d g2] eqn:Ed. injection H as _ <-. rewrite (dh_stream _ _ _ _ _ _ Ed).
  refine (foldM_preserve (fun st => rstream st.2 = rstream g) _ _ _ _ _ _ E3); [|done].
  intros [[a b] g0] p [[a' b'] g3] Hg. cbn [snd] in *. unfold dwta_step. destruct (shuffle a g0) as [a2 g4] eqn:Es.
  intros H. binv H as b2 E4. injection H as _ _ <-. by rewrite (shuffle_rstream _ _ _ _ Es).
Qed.
Lemma srp_stream dim num ratio g t g' : srp_New dim num ratio g = Ok (t, g') -> rstream g' = rstream g.
Proof.
  unfold srp_New. intros H. binv H as a E1. binv H as b E2. binv H as [[[a' ix'] bs'] g1] E3. injection H as _ <-.
  refine (foldM_preserve (fun st => rstream st.2 = rstream g) _ _ _ _ _ _ E3); [|done].
  intros [[[a0 b0] c0] g0] p [[[a2 b2] c2] g2] Hg. cbn [snd] in *. unfold srp_step. destruct (shuffle a0 g0) as [a3 g3] eqn:Es.
  apply shuffle_rstream in Es.
  intros H. binv H as z1 Z1. binv H as z2 Z2. binv H as [[i1 b1] g4] E4. injection H as _ _ _ <-.
  refine (foldM_preserve (fun st => rstream st.2 = rstream g) _ _ _ _ _ _ E4); [|cbn [snd]; congruence].
  clear. intros [[a0 b0] g0] p [[a2 b2] g2] Hg. cbn [snd] in *. unfold srp_sample. intros H. binv H as x Ex.
  destruct (rand_int g0) as [cr g1] eqn:Eg. apply draw_stream in Eg. injection H as _ _ <-. congruence.
Qed.
Lemma hashers_stream E h mh k l prev g h' g' : make_hashers E h mh k l prev g = Ok (h', g') -> rstream g' = rstream g.
Proof.
  unfold make_hashers. destruct (e_Hash E); intros H.
  - binv H as [w g1] E1. injection H as _ <-. by eapply wta_stream.
  - binv H as b E0. binv H as [w g1] E1. injection H as _ <-. by eapply dwta_stream.
  - unfold mn_New in H. destruct (dh_New _ _ _ g) as [d g1] eqn:Ed. binv H as b E1. injection H as _ <-. by eapply dh_stream.
  - binv H as [w g1] E1. injection H as _ <-. by eapply srp_stream.
  - discriminate H.
Qed.

Lemma mode4_stream N sm L rand label acts g a n g' : select_mode4 N sm L rand label acts g = Ok (a, n, g') -> rstream g' = rstream g.
Proof.
  unfold select_mode4. cbn zeta. intros H. binv H as [c0 s0] E0. binv H as [c1 s1] E1. binv H as [[c2 s2] g2] E2. binv H as act E3.
  injection H as _ _ <-. destruct (s1 <? 1500); [|by injection E2 as _ _ <-].
  unfold rand_intn in E2. destruct (N <=? 0); [discriminate E2|]. cbn [mbind res_bind] in E2. destruct (draw_below N g) as [st g3] eqn:Eg.
  apply draw_stream in Eg. binv E2 as st1 E4. binv E2 as [c3 s3] E5. injection E2 as _ _ <-. done.
Qed.
Lemma select_stream E lv cur label sp g sel n g' : ref_select E lv cur label sp g = Ok (sel, n, g') -> rstream g' = rstream g.
Proof.
  unfold ref_select. destruct (feqb sp fone); [by intros [= _ _ <-]|]. destruct (e_Mode E); intros H.
  - binv H as acts E1. destruct (select_mode1 _ _ _ _ g) as [v g1] eqn:E2. injection H as _ _ <-.
    apply select_mode1_spec in E2 as (? & _ & _ & _ & Hg). done.
  - destruct (is_softmax _); [|by injection H as _ _ <-]. binv H as [a g1] E1. injection H as _ _ <-.
    apply select_mode2_spec in E1 as (? & _ & _ & _ & _ & _ & Hg). done.
  - destruct (is_softmax _); [|by injection H as _ _ <-]. binv H as [a g1] E1. by injection H as _ _ <-.
  - binv H as acts E1. binv H as [[a n1] g1] E2. injection H as _ _ <-. by eapply mode4_stream.
  - by injection H as _ _ <-.
Qed.
Lemma query_stream E lv anpl li i label sp g x anpl' lv' g' : ref_query E lv anpl li i label sp g = Ok (x, anpl', lv', g') -> rstream g' = rstream g.
Proof.
  unfold ref_query. intros H. binv H as cur E1. binv H as [[sel n] g1] E2. binv H as a1 E3. binv H as nx E4. binv H as no E5.
  binv H as [vs [nx1 mx]] E6. binv H as [[vs2 no2] nx2] E7. binv H as a2 E8. injection H as _ _ _ <-. by eapply select_stream.
Qed.
Definition same_stream (nv nv' : NetView) : Prop := rstream (nv_rng nv') = rstream (nv_rng nv).
Lemma forward_stream E num sps nv i feats label off anpl ins nv' :
  ref_forward E num sps nv i feats label off = Ok (anpl, ins, nv') -> same_stream nv nv'.
Proof.
  unfold ref_forward. intros H. binv H as a1 E1. binv H as a2 E2.
  refine (foldM_preserve (fun st => same_stream nv st.2) _ _ _ _ _ _ H); [|done].
  clear. intros [[a b] nv1] j [[a' b'] nv2] Hs. cbn [snd] in *. unfold ref_forward_layer. intros H.
  binv H as lv E1. binv H as sp E2. binv H as [[[x a1] lv'] g'] E3. injection H as _ _ <-. apply query_stream in E3.
  unfold same_stream in *. cbn [nv_rng]. congruence.
Qed.
Lemma backward_rng E num i ex lr anpl nv j nv' : ref_backward_layer E num i ex lr anpl nv j = Ok nv' -> nv_rng nv' = nv_rng nv.
Proof.
  unfold ref_backward_layer. intros H. binv H as lv E1. binv H as cur E2. binv H as next E3.
  refine (foldM_preserve (fun nv1 => nv_rng nv1 = nv_rng nv) _ _ _ _ _ _ H); [|done].
  clear. intros nv1 p nv2 Hs. unfold ref_backward_node. intros H. binv H as lv E1. binv H as v E2. binv H as v1 E3.
  destruct (negb (j =? 0)).
  - binv H as pv E4. binv H as [v2 ps] E5. injection H as <-. done.
  - binv H as v2 E4. injection H as <-. done.
Qed.
Lemma train_one_stream E num sps lr nv ix ins nv' : ref_train_one E num sps lr nv ix = Ok (ins, nv') -> same_stream nv nv'.
Proof.
  destruct ix as [i ex]. unfold ref_train_one. intros H. binv H as [[anpl ins1] nv1] E1. binv H as nv2 E2. injection H as _ <-.
  apply forward_stream in E1. refine (foldM_preserve (fun nv3 => same_stream nv nv3) _ _ _ _ _ _ E2); [|done].
  intros nv3 j nv4 Hs H%backward_rng. unfold same_stream in *. congruence.
Qed.
Lemma train_all_stream E num sps lr nv exs ins nv' : ref_train_all E num sps lr nv exs = Ok (ins, nv') -> same_stream nv nv'.
Proof.
  unfold ref_train_all. intros H. refine (foldM_preserve (fun st => same_stream nv st.2) _ _ _ _ _ _ H); [|done].
  clear. intros [a nv1] ix [a' nv2] Hs H. cbn [snd] in *. binv H as [x nv3] E1. injection H as _ <-. apply train_one_stream in E1.
  unfold same_stream in *. congruence.
Qed.
Lemma reshuffle_stream xs nv nv' : foldM ref_reshuffle nv xs = Ok nv' -> same_stream nv nv'.
Proof.
  intros H. refine (foldM_preserve (same_stream nv) _ _ _ _ _ _ H); [|done].
  clear. intros nv1 j nv2 Hs. unfold ref_reshuffle. intros H. binv H as lv E1. cbn zeta in H. destruct (_ && _); [discriminate H|].
  destruct (fisher_yates _ _ _) as [r g] eqn:Ef. injection H as <-. apply fisher_yates_rstream in Ef. unfold same_stream in *. cbn [nv_rng]. congruence.
Qed.
Lemma update_stream E lr sps rehash rebuild nv j nv' : ref_update_layer E lr sps rehash rebuild nv j = Ok nv' -> same_stream nv nv'.
Proof.
  unfold ref_update_layer. intros H. binv H as lv E1. binv H as sp E2. cbn zeta in H. binv H as [[lv1 g] s] E3. binv H as lv2 E4. injection H as <-.
  unfold same_stream. cbn [nv_rng]. destruct (rebuild && fltb sp fone); [|by injection E3 as _ <- _].
  binv E3 as [h g1] E5. injection E3 as _ <- _. by eapply hashers_stream.
Qed.
Lemma process_stream E num sps lr0 nv exs iter rehash rebuild ins nv' :
  ref_process E num sps lr0 nv exs iter rehash rebuild = Ok (ins, nv') -> same_stream nv nv'.
Proof.
  unfold ref_process. intros H. binv H as z E0. binv H as nv1 E1. cbn zeta in H. binv H as [ins1 nv2] E2. binv H as nv3 E3. injection H as _ <-.
  assert (S1 : same_stream nv nv1). { destruct (_ =? _); [by eapply reshuffle_stream|by injection E1 as <-]. }
  apply train_all_stream in E2. refine (foldM_preserve (same_stream nv) _ _ _ _ _ _ E3); [|unfold same_stream in *; congruence].
  intros nv4 j nv5 Hs H%update_stream. unfold same_stream in *. congruence.
Qed.
Lemma predict_stream E num sps nv exs cnt nv' : ref_predict E num sps nv exs = Ok (cnt, nv') -> same_stream nv nv'.
Proof.
  unfold ref_predict. intros H. binv H as z E0. refine (foldM_preserve (fun st => same_stream nv st.2) _ _ _ _ _ _ H); [|done].
  clear. intros [a nv1] [i ex] [a' nv2] Hs H. cbn [snd] in *. binv H as [x nv3] E1. injection H as _ <-. unfold ref_predict_one in E1.
  binv E1 as [[anpl ins] nv4] E2. binv E1 as out E3. binv E1 as lv E4. binv E1 as [mx c] E5. injection E1 as _ <-. apply forward_stream in E2.
  unfold same_stream in *. congruence.
Qed.

Lemma odds_stream n : forall g xs g', oddRandoms n g = (xs, g') -> rstream g' = rstream g.
Proof.
  induction n as [|n IH]; intros g xs g'; cbn [oddRandoms]; [by intros [= _ <-]|].
  destruct (positiveOddRandomInt g) as [v g1] eqn:E1. destruct (oddRandoms n g1) as [ys g2] eqn:E2. intros [= _ <-].
  apply odd_stream in E1. apply IH in E2. congruence.
Qed.
Lemma layer_new_stream E norm pos N P ty batch k l rp g s lv g' :
  ref_layer_new E norm pos N P ty batch k l rp g s = Ok (lv, g') -> rstream g' = rstream g.
Proof.
  unfold ref_layer_new. destruct (shuffle _ g) as [rand g1] eqn:Es. apply shuffle_rstream in Es. intros H.
  binv H as [t g2] E1. binv H as [h g3] E2. binv H as t2 E3. injection H as _ <-. apply hashers_stream in E2. rewrite E2, <- Es.
  unfold lsh_New in E1. binv E1 as rows X1. binv E1 as bk X2. binv E1 as r1 X3. destruct (oddRandoms (length r1) g1) as [rs g4] eqn:Eo. injection E1 as _ <-.
  by apply odds_stream in Eo.
Qed.
Lemma net_new_stream E norm num sizes types batch inputDim k l rp sparsity pos g s nv :
  ref_net_new E norm num sizes types batch inputDim k l rp sparsity pos g s = Ok nv -> rstream (nv_rng nv) = rstream g.
Proof.
  unfold ref_net_new. intros H. binv H as z E0. binv H as [[[[lvs p1] pos1] g1] s1] E1. injection H as <-. cbn [nv_rng].
  refine (foldM_preserve (fun st => rstream st.1.2 = rstream g) _ _ _ _ _ _ E1); [|done].
  clear. intros [[[[a1 a2] a3] g2] a5] j [[[[b1 b2] b3] g3] b5] Hs. cbn [fst snd] in *. unfold ref_new_layer. intros H.
  binv H as size X1. binv H as ty X2. binv H as ki X3. binv H as li X4. binv H as ri X5. binv H as sp X6. binv H as [lv g4] X7. injection H as _ _ _ <- _.
  apply layer_new_stream in X7. congruence.
Qed.
