(** Proofs about the dataset scanner. *)
From Verif.Model Require Import Xcrepo.
From Verif.Spec Require Import XcSpec.
From Verif.Proofs Require Import BufioProofs.
From Coq Require Import ZifyNat ZifyBool Lia.

(** * split and join *)
Lemma split_on_spec sep s :
  split_on sep s <> [] /\ join sep (split_on sep s) = s /\ Forall (fun p => ~ sep ∈ p) (split_on sep s).
Proof.
  induction s as [|c s (IH1 & IH2 & IH3)].
  - cbn. split; [done|]. split; [done|]. constructor; [apply not_elem_of_nil|constructor].
  - cbn [split_on]. destruct (Z.eqb_spec c sep) as [->|Hne].
    + split; [done|]. split.
      * destruct (split_on sep s) as [|p ps]; [done|]. change (join sep ([] :: p :: ps)) with (sep :: join sep (p :: ps)). by rewrite IH2.
      * constructor; [apply not_elem_of_nil|done].
    + destruct (split_on sep s) as [|p ps]; [done|]. split; [done|]. split.
      * rewrite <- IH2. by destruct ps.
      * inversion IH3; subst. constructor; [|done]. rewrite elem_of_cons. naive_solver.
Qed.

Lemma split_on_no_sep sep s : ~ sep ∈ s -> split_on sep s = [s].
Proof.
  induction s as [|c s IH]; [done|]. rewrite not_elem_of_cons. intros [H1 H2]. cbn [split_on].
  destruct (Z.eqb_spec c sep); [congruence|]. by rewrite IH.
Qed.
Lemma split_on_app sep p s : ~ sep ∈ p -> split_on sep (p ++ sep :: s) = p :: split_on sep s.
Proof.
  induction p as [|c p IH]; cbn [split_on app].
  - intros _. by rewrite Z.eqb_refl.
  - rewrite not_elem_of_cons. intros [H1 H2]. destruct (Z.eqb_spec c sep); [congruence|]. by rewrite IH.
Qed.
Lemma split_on_join sep ps :
  ps <> [] -> Forall (fun p => ~ sep ∈ p) ps -> split_on sep (join sep ps) = ps.
Proof.
  induction ps as [|p ps IH]; [done|]. intros _ H. inversion H; subst. destruct ps as [|q ps].
  - by apply split_on_no_sep.
  - change (join sep (p :: q :: ps)) with (p ++ sep :: join sep (q :: ps)).
    rewrite split_on_app by done. f_equal. by apply IH.
Qed.

(** * Integers *)
Lemma atoi_digits_spec s acc z :
  atoi_digits acc s = Some z <->
  Forall (fun c => 48 <= c <= 57) s /\ z = fold_left (fun a c => 10 * a + (c - 48)) s acc.
Proof.
  revert acc. induction s as [|c s IH]; intros acc; cbn [atoi_digits fold_left].
  - split; [intros [= <-]; split; [constructor|done]|intros [_ ->]; done].
  - unfold is_digit. destruct ((48 <=? c) && (c <=? 57)) eqn:E.
    + rewrite IH. rewrite Forall_cons. replace (acc * 10 + (c - 48)) with (10 * acc + (c - 48)) by lia.
      split; [intros [H1 H2]|intros [[H0 H1] H2]]; repeat split; auto; lia.
    + rewrite Forall_cons. split; [done|]. intros [[H0 _] _]. lia.
Qed.

Lemma atoi_unsigned_spec s z :
  atoi_unsigned s = Some z <-> s <> [] /\ Forall (fun c => 48 <= c <= 57) s /\ z = decimal s.
Proof.
  unfold atoi_unsigned. destruct s as [|c s].
  - split; [done|]. by intros [[] _].
  - rewrite atoi_digits_spec. unfold decimal. split; [intros []|intros [_ []]]; by auto.
Qed.

Lemma atoi_spec t z : atoi t = Some z <-> int_text t z.
Proof.
  unfold atoi, int_text.
  assert (Hrange : forall v : option Z, (match v with
      | Some z => if (minInt64 <=? z) && (z <=? maxInt64) then Some z else None
      | None => None end) = Some z <-> v = Some z /\ in_int64 z).
  { intros [y|]; [|split; [done|by intros []]]. unfold in_int64.
    destruct ((minInt64 <=? y) && (y <=? maxInt64)) eqn:E.
    - split; [intros [= <-]; split; [done|lia]|by intros []].
    - split; [done|]. intros [[= <-] H]. lia. }
  rewrite Hrange. clear Hrange. destruct t as [|c t].
  { split; [by intros []|]. intros (d & Hd & _ & _ & [[<- _]|[[H _]|[H _]]]); done. }
  destruct (Z.eqb_spec c chMinus) as [->|Hm].
  { rewrite fmap_Some. setoid_rewrite atoi_unsigned_spec. split.
    - intros ((v & (H1 & H2 & ->) & ->) & Hr). exists t. split; [done|]. split; [done|]. split; [done|].
      right. right. done.
    - intros (d & H1 & H2 & Hr & [[<- _]|[[[=] _]|[[= <-] ->]]]).
      + inversion H2; subst. unfold chMinus in *. lia.
      + split; [|done]. exists (decimal t). done. }
  destruct (Z.eqb_spec c chPlus) as [->|Hp].
  { rewrite atoi_unsigned_spec. split.
    - intros ((H1 & H2 & ->) & Hr). exists t. split; [done|]. split; [done|]. split; [done|].
      right. left. done.
    - intros (d & H1 & H2 & Hr & [[<- _]|[[[= <-] ->]|[[=] _]]]).
      + inversion H2; subst. unfold chPlus in *. lia.
      + done. }
  rewrite atoi_unsigned_spec. split.
  - intros ((H1 & H2 & ->) & Hr). exists (c :: t). split; [done|]. split; [done|]. split; [done|]. by left.
  - intros (d & H1 & H2 & Hr & [[<- ->]|[[[= ->] _]|[[= ->] _]]]); done.
Qed.

Lemma int_text_chars t z c : int_text t z -> c ∈ t -> 48 <= c <= 57 \/ c = chPlus \/ c = chMinus.
Proof.
  intros (d & _ & Hd & _ & H) Hc. rewrite Forall_forall in Hd.
  destruct H as [[-> _]|[[-> _]|[-> _]]]; [auto| |]; apply elem_of_cons in Hc as [->|Hc]; auto.
Qed.
Lemma int_text_no t z c : int_text t z -> c < 43 \/ c = 44 \/ 57 < c -> ~ c ∈ t.
Proof. intros Ht Hc Hin. apply (int_text_chars _ _ _ Ht) in Hin. unfold chPlus, chMinus in Hin. lia. Qed.

(** * Parsing a line *)
Lemma labels_loop_spec L dst i vs out :
  length dst = (i + length vs)%nat ->
  labels_loop L dst i vs = (out, None) <->
  exists labels, Forall2 (fun lt l => int_text lt l /\ 0 <= l < L) vs labels /\ out = take i dst ++ labels.
Proof.
  revert dst i. induction vs as [|v vs IH]; intros dst i Hlen; cbn [labels_loop].
  - split.
    + intros [= <-]. exists []. split; [constructor|]. rewrite take_ge, app_nil_r; [done|]. cbn in Hlen. lia.
    + intros (l & H & ->). inversion H; subst. rewrite take_ge, app_nil_r; [done|]. cbn in Hlen. lia.
  - cbn in Hlen. destruct (atoi v) as [z|] eqn:Ev.
    + apply atoi_spec in Ev. destruct ((z <? 0) || (L <=? z)) eqn:Eb.
      * split; [done|]. intros (l & H & ->). inversion H as [|? y ? ? [H1 H2]]; subst.
        apply atoi_spec in H1, Ev. rewrite Ev in H1. inversion H1; subst. lia.
      * rewrite IH by (rewrite insert_length; lia). split.
        -- intros (l & H & ->). exists (z :: l). split; [constructor; [split; [done|lia]|done]|].
           rewrite (take_S_r _ _ z) by (apply list_lookup_insert; lia).
           rewrite take_insert by lia. by rewrite <- app_assoc.
        -- intros (l & H & ->). inversion H as [|? y ? l' [H1 H2]]; subst.
           apply atoi_spec in H1, Ev. rewrite Ev in H1. inversion H1; subst.
           exists l'. split; [done|].
           rewrite (take_S_r _ _ y) by (apply list_lookup_insert; lia).
           rewrite take_insert by lia. by rewrite <- app_assoc.
    + split; [done|]. intros (l & H & ->). inversion H as [|? y ? ? [H1 H2]]; subst.
      apply atoi_spec in H1. congruence.
Qed.

Lemma parseLabels_spec L str out :
  parseLabels L str = (out, None) <->
  exists lts, str = join chComma lts /\ Forall2 (fun lt l => int_text lt l /\ 0 <= l < L) lts out.
Proof.
  unfold parseLabels. destruct str as [|c str].
  - split.
    + intros [= <-]. exists []. split; [done|constructor].
    + intros (lts & H & HF). destruct lts as [|lt lts]; [by inversion HF|].
      inversion HF as [|? ? ? ? [(d & Hd1 & _ & _ & Hd) _]]; subst. exfalso.
      destruct lts; cbn in H.
      * subst lt. destruct Hd as [[H _]|[[H _]|[H _]]]; congruence.
      * by destruct lt.
  - set (s := c :: str). destruct (split_on_spec chComma s) as (H1 & H2 & H3).
    rewrite labels_loop_spec by (by rewrite replicate_length). cbn [take app].
    split.
    + intros (l & H & ->). exists (split_on chComma s). done.
    + intros (lts & H & HF). exists out. split; [|done]. rewrite H. rewrite split_on_join; [done| |].
      * intros ->. cbn in H. done.
      * clear H. induction HF as [|? ? ? ? [Ht _]]; constructor; [|done].
        eapply int_text_no; [exact Ht|]. unfold chComma. lia.
Qed.

Lemma split_colon_spec t a b :
  split_on chColon t = [a; b] <-> t = a ++ chColon :: b /\ ~ chColon ∈ a /\ ~ chColon ∈ b.
Proof.
  split.
  - intros H. destruct (split_on_spec chColon t) as (_ & H2 & H3). rewrite H in H2, H3.
    inversion H3 as [|? ? Ha H4]; inversion H4 as [|? ? Hb _]; subst. done.
  - intros (-> & Ha & Hb). rewrite split_on_app by done. by rewrite split_on_no_sep.
Qed.

Lemma join_no_sep sep c ps : c <> sep -> Forall (fun p => ~ c ∈ p) ps -> ~ c ∈ join sep ps.
  Proof.
    intros Hc H. induction H as [|p ps Hp Hps IH]; [apply not_elem_of_nil|].
    destruct ps as [|q ps]; [done|].
    change (join sep (p :: q :: ps)) with (p ++ sep :: join sep (q :: ps)).
    rewrite elem_of_app, elem_of_cons. naive_solver.
  Qed.

Section parse.
  Context (pf : bytes -> option float64).

  Definition feat (F : Z) (t : bytes) (p : Pair) : Prop :=
    exists ti tv, t = ti ++ chColon :: tv /\ int_text ti (iv_index p) /\ 0 <= iv_index p < F /\
      ~ chColon ∈ tv /\ pf tv = Some (iv_value p).

  Lemma features_loop_spec F dst i vs out :
    length dst = (i + length vs)%nat ->
    features_loop pf F dst i vs = (out, None) <->
    exists fs, Forall2 (feat F) vs fs /\ out = take i dst ++ fs.
  Proof.
    revert dst i. induction vs as [|v vs IH]; intros dst i Hlen; cbn [features_loop].
    - split.
      + intros [= <-]. exists []. split; [constructor|]. rewrite take_ge, app_nil_r; [done|]. cbn in Hlen. lia.
      + intros (l & H & ->). inversion H; subst. rewrite take_ge, app_nil_r; [done|]. cbn in Hlen. lia.
    - cbn in Hlen.
      assert (Hdet : forall ti tv p, split_on chColon v = [ti; tv] -> feat F v p ->
                int_text ti (iv_index p) /\ 0 <= iv_index p < F /\ pf tv = Some (iv_value p)).
      { intros ti tv p Hs (ti' & tv' & Hv & H1 & H2 & H3 & H4).
        assert (split_on chColon v = [ti'; tv']) as Hs'.
        { apply split_colon_spec. split; [done|]. split; [|done].
          eapply int_text_no; [exact H1|]. unfold chColon. lia. }
        rewrite Hs in Hs'. inversion Hs'; subst. done. }
      destruct (split_on chColon v) as [|ti [|tv [|x xs]]] eqn:Es.
      1,2,4: (split; [done|]; intros (fs & H & _); inversion H as [|? p ? ? (ti' & tv' & Hv & H1 & H2 & H3 & H4)]; subst;
        exfalso; rewrite split_on_app in Es by (eapply int_text_no; [exact H1|]; unfold chColon; lia);
        rewrite split_on_no_sep in Es by done; done).
      destruct (atoi ti) as [z|] eqn:Ev.
      + destruct ((z <? 0) || (F <=? z)) eqn:Eb.
        * split; [done|]. intros (fs & H & _). inversion H as [|? p ? ? Hp]; subst.
          destruct (Hdet _ _ _ eq_refl Hp) as (H1 & H2 & _). apply atoi_spec in H1. rewrite Ev in H1.
          inversion H1; subst. lia.
        * destruct (pf tv) as [x|] eqn:Ex.
          -- rewrite IH by (rewrite insert_length; lia).
             assert (Hfeat : feat F v (mkPair z x)).
             { exists ti, tv. apply split_colon_spec in Es as (-> & Ha & Hb). apply atoi_spec in Ev.
               cbn. repeat split; try done; lia. }
             split.
             ++ intros (l & H & ->). exists (mkPair z x :: l). split; [by constructor|].
                rewrite (take_S_r _ _ (mkPair z x)) by (apply list_lookup_insert; lia).
                rewrite take_insert by lia. by rewrite <- app_assoc.
             ++ intros (l & H & ->). inversion H as [|? p ? l' Hp Hl']; subst.
                exists l'. split; [done|].
                destruct (Hdet _ _ _ eq_refl Hp) as (H1 & H2 & H3). apply atoi_spec in H1.
                assert (p = mkPair z x) as -> by (destruct p; cbn in *; congruence).
                rewrite (take_S_r _ _ (mkPair z x)) by (apply list_lookup_insert; lia).
                rewrite take_insert by lia. by rewrite <- app_assoc.
          -- split; [done|]. intros (fs & H & _). inversion H as [|? p ? ? Hp]; subst.
             destruct (Hdet _ _ _ eq_refl Hp) as (_ & _ & H3). congruence.
      + split; [done|]. intros (fs & H & _). inversion H as [|? p ? ? Hp]; subst.
        destruct (Hdet _ _ _ eq_refl Hp) as (H1 & _ & _). apply atoi_spec in H1. congruence.
  Qed.

  Lemma parseFeatures_spec F vs out :
    parseFeatures pf F vs = (out, None) <->
    exists fs, vs <> [] /\ Forall2 (feat F) vs fs /\ out = Some fs.
  Proof.
    unfold parseFeatures. destruct vs as [|v vs].
    - split; [done|]. by intros (fs & H & _).
    - destruct (features_loop _ _ _ _ _) as [fs e] eqn:E. split.
      + intros [= <- ->]. apply features_loop_spec in E; [|by rewrite replicate_length].
        destruct E as (fs' & H & ->). exists fs'. done.
      + intros (fs' & _ & H & ->).
        assert (E' : features_loop pf F (replicate (length (v :: vs)) (mkPair 0 fzero)) 0 (v :: vs) = (fs', None)).
        { apply features_loop_spec; [by rewrite replicate_length|]. by exists fs'. }
        rewrite E in E'. by inversion E'.
  Qed.

  Lemma parse_line_spec F L t ex :
    parse_line pf F L t = (ex, None) <->
    exists labels features, example_line pf F L t labels features /\ ex = example labels features.
  Proof.
    unfold parse_line. destruct (split_on_spec chSP t) as (H1 & H2 & H3).
    destruct (split_on chSP t) as [|v0 vs] eqn:Es; [done|]. inversion H3 as [|? ? Hv0 Hvs]; subst.
    assert (Hex : forall labels features, example_line pf F L (join chSP (v0 :: vs)) labels features <->
              parseLabels L v0 = (labels, None) /\ parseFeatures pf F vs = (Some features, None)).
    { intros labels features. rewrite parseLabels_spec, parseFeatures_spec. split.
      - intros (lts & fts & Hj & Hne & HL & HF).
        assert (Hpieces : Forall (fun p => ~ chSP ∈ p) (join chComma lts :: fts)).
        { constructor.
          - apply join_no_sep; [done|]. clear Hj Es. induction HL as [|? ? ? ? [Ht _]]; constructor; [|done].
            eapply int_text_no; [exact Ht|]. unfold chSP. lia.
          - clear Hj Es Hne. induction HF as [|? ? ? ? (ti & tv & -> & Ht & _ & Hsp & _)]; constructor; [|done].
            rewrite elem_of_app, elem_of_cons. intros [H|[H|H]]; [|done|done].
            eapply int_text_no; [exact Ht| |exact H]. unfold chSP. lia. }
        rewrite Hj, split_on_join in Es by done. inversion Es; subst.
        split; [by exists lts|]. exists features. split; [done|]. split; [|done].
        eapply Forall2_impl; [exact HF|]. intros x y (ti & tv & H). exists ti, tv. naive_solver.
      - intros [(lts & -> & HL) (fs & Hne & HF & [= <-])]. exists lts, vs. split; [done|]. split; [done|]. split; [done|].
        clear Hne Es H3 H1. induction HF as [|? ? ? ? (ti & tv & -> & Ht & Hb & Hc & Hp)]; [constructor|].
        inversion Hvs as [|? ? Hsp Hvs']; subst. constructor; [|by apply IHHF].
        exists ti, tv. split; [done|]. split; [done|]. split; [done|]. split; [|done].
        intros H. apply Hsp. rewrite elem_of_app, elem_of_cons. auto. }
    split.
    - destruct (parseLabels L v0) as [labels [e|]] eqn:EL; [done|].
      destruct (parseFeatures pf F vs) as [features e] eqn:EF. intros [= <- ->].
      pose proof EF as EF'. apply parseFeatures_spec in EF' as (fs & _ & _ & ->).
      exists labels, fs. split; [|done]. apply Hex. done.
    - intros (labels & features & H & ->). apply Hex in H as [-> ->]. done.
  Qed.

  Lemma parse_line_err F L t ex e :
    parse_line pf F L t = (ex, Some e) ->
    e = ErrMalformedLabels \/ e = ErrLabelOutOfBounds \/ e = ErrMissingFeatures \/
    e = ErrMalformedFeatures \/ e = ErrFeatureIndexOutOfBounds.
  Proof.
    assert (HL : forall vs dst i out e, labels_loop L dst i vs = (out, Some e) -> e = ErrMalformedLabels \/ e = ErrLabelOutOfBounds).
    { induction vs as [|v vs IH]; intros dst i out e'; cbn [labels_loop]; [done|].
      destruct (atoi v); [|intros [= _ <-]; auto]. destruct (_ || _); [intros [= _ <-]; auto|]. apply IH. }
    assert (HF : forall vs dst i out e, features_loop pf F dst i vs = (out, Some e) -> e = ErrMalformedFeatures \/ e = ErrFeatureIndexOutOfBounds).
    { induction vs as [|v vs IH]; intros dst i out e'; cbn [features_loop]; [done|].
      destruct (split_on chColon v) as [|? [|? [|]]]; try (intros [= _ <-]; by auto).
      destruct (atoi _); [|intros [= _ <-]; auto]. destruct (_ || _); [intros [= _ <-]; auto|].
      destruct (pf _); [|intros [= _ <-]; auto]. apply IH. }
    unfold parse_line. destruct (split_on_spec chSP t) as (H1 & _ & _).
    destruct (split_on chSP t) as [|v0 vs]; [done|].
    unfold parseLabels. destruct v0 as [|c v0].
    - unfold parseFeatures. destruct vs as [|v vs]; [intros [= _ <-]; auto|].
      destruct (features_loop _ _ _ _ _) as [fs e'] eqn:E. intros [= _ ->]. apply HF in E. naive_solver.
    - destruct (labels_loop _ _ _ _) as [ls [e'|]] eqn:E.
      + intros [= _ ->]. apply HL in E. naive_solver.
      + unfold parseFeatures. destruct vs as [|v vs]; [intros [= _ <-]; auto|].
        destruct (features_loop _ _ _ _ _) as [fs e'] eqn:E'. intros [= _ ->]. apply HF in E'. naive_solver.
  Qed.
End parse.

Lemma header_spec t :
  match split_on chSP t with
  | [a; b; c] => match header_ints [a; b; c] with
                 | Some [P; F; L] => header_line t P F L
                 | _ => forall P F L, ~ header_line t P F L
                 end
  | _ => forall P F L, ~ header_line t P F L
  end.
Proof.
  assert (Hsplit : forall P F L, header_line t P F L -> exists a b c, split_on chSP t = [a; b; c] /\
            int_text a P /\ int_text b F /\ int_text c L /\ 0 < P /\ 0 < F /\ 0 < L).
  { intros P F L (a & b & c & -> & Ha & Hb & Hc & H). exists a, b, c. split; [|done].
    apply split_on_join; [done|]. repeat constructor; eapply int_text_no; eauto; unfold chSP; lia. }
  assert (Hone : forall v z, (match atoi v with Some z => if z <=? 0 then None else Some z | None => None end) = Some z <->
            int_text v z /\ 0 < z).
  { intros v z. rewrite <- atoi_spec. destruct (atoi v) as [y|]; [|naive_solver].
    destruct (Z.leb_spec y 0); split.
    - done.
    - intros [[= ->] ?]. lia.
    - by intros [= ->].
    - by intros [[= ->] _]. }
  destruct (split_on_spec chSP t) as (_ & Hj & _).
  destruct (split_on chSP t) as [|a [|b [|c [|d ds]]]] eqn:Es.
  1,2,3,5: (intros P F L H; destruct (Hsplit _ _ _ H) as (? & ? & ? & [=] & _)).
  destruct (header_ints [a; b; c]) as [zs|] eqn:Eh.
  - unfold header_ints in Eh. apply mapM_Some in Eh.
    inversion Eh as [|? P ? ? HP Eh1]; inversion Eh1 as [|? F ? ? HF Eh2]; inversion Eh2 as [|? L ? ? HL Eh3]; inversion Eh3; subst.
    apply Hone in HP, HF, HL. exists a, b, c. naive_solver.
  - intros P F L H. destruct (Hsplit _ _ _ H) as (? & ? & ? & [= <- <- <-] & Ha & Hb & Hc & HP & HF & HL).
    assert (Some [P; F; L] = header_ints [a; b; c]) as Hc'; [|congruence].
    symmetry. unfold header_ints. apply mapM_Some. repeat constructor; by apply Hone.
Qed.

(** * Sequences of calls *)
Definition with_buf (s : Scanner) (b : BufScanner) (e : option xerr) (line : Z) (ex : Example_) : Scanner :=
  {| x_buf := b; x_err := e; x_line := line; x_totalPoints := x_totalPoints s;
     x_numFeatures := x_numFeatures s; x_numLabels := x_numLabels s; x_example := ex |}.

Definition alive (r : reader) (s : Scanner) : Prop :=
  wf (x_buf s) /\ rd_final (b_rd (x_buf s)) = rd_final r /\ suffix_chunks r (b_rd (x_buf s)) /\
  x_err s = None /\ bufio_Err (x_buf s) = None /\
  exists h pre, raw_lines (rd_data r) = (h :: pre) ++ raw_lines (rest (x_buf s)) /\
    x_line s = Z.of_nat (S (length pre)) /\
    header_line (dropCR h) (x_totalPoints s) (x_numFeatures s) (x_numLabels s) /\
    (rd_final r <> EOF -> newlines (rd_data r) = (S (length pre) + newlines (rest (x_buf s)))%nat).

Lemma raw_lines_too_long data :
  ~ chNL ∈ take maxTokenSize data -> (maxTokenSize <= length data)%nat ->
  exists l ls, raw_lines data = l :: ls /\ (maxTokenSize <= length l)%nat.
Proof.
  intros H1 H2. assert (data <> []) as Hne.
  { intros ->. cbn in H2. assert (0 < maxTokenSize)%nat by (unfold maxTokenSize; lia). lia. }
  rewrite raw_lines_next by done. do 2 eexists. split; [done|]. unfold next_line.
  destruct (index_byte chNL data) as [i|] eqn:E; [|done]. cbn [fst].
  apply index_byte_Some in E as (E1 & E2 & E3). rewrite take_length.
  destruct (Nat.leb_spec maxTokenSize i); [lia|]. exfalso. apply H1.
  apply (elem_of_list_lookup_2 _ i). by rewrite lookup_take.
Qed.

Lemma scan_failure_of r (s : BufScanner) pre e :
  rd_final (b_rd s) = rd_final r -> suffix_chunks r (b_rd s) ->
  raw_lines (rd_data r) = pre ++ raw_lines (rest s) ->
  (e = rd_final (b_rd s) \/ (e = ErrNoProgress /\ ~ no_stall (rd_chunks (b_rd s))) \/
   (e = ErrTooLong /\ ~ chNL ∈ take maxTokenSize (rest s) /\ (maxTokenSize <= length (rest s))%nat)) ->
  scan_failure r e.
Proof.
  intros Hf [k Hk] Hl [->|[[-> Hns]|(-> & H1 & H2)]].
  - left. done.
  - right. left. split; [done|]. intros H. apply Hns. rewrite Hk. by apply no_stall_drop.
  - right. right. split; [done|]. intros H. unfold lines_fit in H. rewrite Hl in H.
    apply Forall_app in H as [_ H]. destruct (raw_lines_too_long _ H1 H2) as (l & ls & E & Hlen).
    rewrite E in H. inversion H; subst. unfold maxTokenSize in Hlen. lia.
Qed.

(** NewScanner *)
Lemma new_spec r :
  exists s, x_NewScanner r = Ok s /\ x_example s = no_example /\
    (alive r s /\ x_line s = 1
     \/ (x_err s = Some ErrMalformedHeader /\ x_line s = 1 /\
         ((rd_data r = [] /\ rd_final r = EOF) \/
          exists h, raw_lines (rd_data r) !! 0%nat = Some h /\ forall P F L, ~ header_line (dropCR h) P F L))
     \/ (x_err s = None /\ x_line s = 0 /\ exists e, bufio_Err (x_buf s) = Some e /\ scan_failure r e)).
Proof.
  unfold x_NewScanner. cbn [x_buf]. unfold bufio_Err at 1. cbn [b_err bufio_NewScanner].
  unfold scanHeader. cbn [x_buf].
  destruct (bufio_Scan_spec (bufio_NewScanner r) (wf_new r) eq_refl) as (ok & b & -> & Hwf & Hfin & Hsuf & Hpost).
  cbn [mbind res_bind].
  assert (Hr : rest (bufio_NewScanner r) = rd_data r) by done.
  destruct (bufio_Err b) as [e|] eqn:Ee.
  - eexists. split; [done|]. cbn. split; [done|]. right. right. repeat split. exists e. split; [done|].
    eapply (scan_failure_of r (bufio_NewScanner r) []); try done. by exists 0%nat.
  - rewrite Hr in Hpost. cbn [b_rd bufio_NewScanner] in *.
    pose proof (header_spec (bufio_Text b)) as Hh.
    assert (Hbad : (forall P F L, ~ header_line (bufio_Text b) P F L) ->
       ((rd_data r = [] /\ rd_final r = EOF) \/
          exists h, raw_lines (rd_data r) !! 0%nat = Some h /\ forall P F L, ~ header_line (dropCR h) P F L)).
    { intros H. destruct ok.
      - right. destruct Hpost as (Hne & Htok & _). rewrite raw_lines_next by done.
        eexists. split; [done|]. unfold bufio_Text in H. rewrite Htok in H. done.
      - left. destruct Hpost as (Hne & _ & Hb & _). split; [done|]. unfold wf in Hwf. rewrite Hb in Hwf.
        destruct (Hwf eq_refl) as [Hf _]. congruence. }
    assert (Hgood : forall P F L s, header_line (bufio_Text b) P F L ->
       s = {| x_buf := b; x_err := None; x_line := 0 + 1; x_totalPoints := P;
              x_numFeatures := F; x_numLabels := L; x_example := no_example |} -> alive r s /\ x_line s = 1).
    { intros P F L s H ->. split; [|done]. unfold alive. cbn [x_buf x_err x_line x_totalPoints x_numFeatures x_numLabels].
      split; [done|]. split; [done|]. split; [done|]. split; [done|]. split; [done|].
      destruct ok.
      - destruct Hpost as (Hne & Htok & Hrest & Hnl). exists (next_line (rd_data r)).1, [].
        rewrite Hrest. split; [by rewrite raw_lines_next at 1|]. split; [done|].
        unfold bufio_Text in H. rewrite Htok in H. split; [done|].
        intros Hf. destruct (Hnl Hf) as [i Hi]. by apply (newlines_next _ i).
      - destruct Hpost as (_ & _ & _ & Htok). unfold bufio_Text in H. rewrite Htok in H. exfalso.
        pose proof (header_spec []) as H0. cbn in H0. by apply (H0 P F L). }
    destruct (split_on chSP (bufio_Text b)) as [|a [|b' [|c [|d ds]]]].
    1,2,3,5: (eexists; split; [done|]; cbn; split; [done|]; right; left; by auto).
    destruct (header_ints [a; b'; c]) as [[|P [|F [|L [|? ?]]]]|].
    1,2,3,5,6: (eexists; split; [done|]; cbn; split; [done|]; right; left; by auto).
    eexists. split; [done|]. cbn [x_example]. split; [done|]. left. by eapply Hgood.
Qed.

Section calls.
  Context (pf : bytes -> option float64).

  Lemma dead_step s e :
    x_Err s = Some e ->
    x_Scan pf s = Ok (false, with_buf s (x_buf s) (x_err s) (x_line s) no_example).
  Proof. intros H. unfold x_Scan. unfold x_Err in *. cbn. by rewrite H. Qed.

  Lemma alive_step r s :
    alive r s -> exists ok b e line ex,
      x_Scan pf s = Ok (ok, with_buf s b e line ex) /\
      let s' := with_buf s b e line ex in
      match ok with
      | true => alive r s' /\ line = x_line s + 1 /\
          exists raw labels features, raw_lines (rd_data r) !! Z.to_nat (x_line s) = Some raw /\
            example_line pf (x_numFeatures s) (x_numLabels s) (dropCR raw) labels features /\
            ex = example labels features /\
            (rd_final r <> EOF -> line <= Z.of_nat (newlines (rd_data r)))
      | false =>
          (alive r s' /\ line = x_line s /\ Z.of_nat (length (raw_lines (rd_data r))) = line /\ ex = no_example /\
           rd_final r = EOF /\ b_err b = Some EOF /\ rest b = []) \/
          (exists e', e = Some e' /\
             (e' = ErrMalformedLabels \/ e' = ErrLabelOutOfBounds \/ e' = ErrMissingFeatures \/
              e' = ErrMalformedFeatures \/ e' = ErrFeatureIndexOutOfBounds) /\ line = x_line s + 1 /\
             exists raw, raw_lines (rd_data r) !! Z.to_nat (x_line s) = Some raw /\
               forall labels features, ~ example_line pf (x_numFeatures s) (x_numLabels s) (dropCR raw) labels features) \/
          (e = None /\ line = x_line s /\ ex = no_example /\ exists e', bufio_Err b = Some e' /\ scan_failure r e')
      end.
  Proof.
    intros (Hwf & Hfin & Hsuf & Hxe & Hbe & h & pre & Hlines & Hline & Hhead & Hnl).
    unfold x_Scan. unfold x_Err. cbn [x_err x_buf]. rewrite Hxe, Hbe. cbn [fmap option_fmap option_map].
    destruct (bufio_Scan_spec (x_buf s) Hwf Hbe) as (ok & b & -> & Hwf' & Hfin' & Hsuf' & Hpost).
    cbn [mbind res_bind x_numFeatures x_numLabels].
    destruct (bufio_Err b) as [e|] eqn:Ee.
    { rewrite orb_true_r. exists false, b, None, (x_line s), no_example. split; [done|]. cbn zeta.
      right. right. repeat split. exists e. split; [done|]. by eapply scan_failure_of. }
    rewrite orb_false_r. destruct ok; cbn [negb].
    - destruct Hpost as (Hne & Htok & Hrest & Hnl').
      set (raw := (next_line (rest (x_buf s))).1) in *.
      assert (Hlk : raw_lines (rd_data r) !! Z.to_nat (x_line s) = Some raw).
      { rewrite Hlines, Hline, Nat2Z.id. rewrite lookup_app_r by (cbn; lia).
        cbn [length]. rewrite Nat.sub_diag. rewrite raw_lines_next by done. done. }
      assert (Hlines' : raw_lines (rd_data r) = (h :: (pre ++ [raw])) ++ raw_lines (rest b)).
      { rewrite Hlines, Hrest. rewrite (raw_lines_next (rest (x_buf s))) by done.
        rewrite app_comm_cons. rewrite <- app_assoc. done. }
      assert (Hnl2 : rd_final r <> EOF -> newlines (rd_data r) = (S (length (pre ++ [raw])) + newlines (rest b))%nat).
      { intros Hf. rewrite (Hnl Hf). destruct (Hnl' ltac:(congruence)) as [i Hi].
        rewrite (newlines_next _ i Hi), Hrest, app_length. cbn. lia. }
      unfold bufio_Text. rewrite Htok. cbn [from_option id].
      destruct (parse_line pf (x_numFeatures s) (x_numLabels s) (dropCR raw)) as [ex [e|]] eqn:Ep.
      + exists false, b, (Some e), (x_line s + 1), ex. split; [done|]. cbn zeta. right. left.
        exists e. split; [done|]. split; [by eapply parse_line_err|]. split; [done|].
        exists raw. split; [done|]. intros labels features Hex.
        assert (parse_line pf (x_numFeatures s) (x_numLabels s) (dropCR raw) = (example labels features, None)) as Hc.
        { apply parse_line_spec. by exists labels, features. }
        congruence.
      + exists true, b, None, (x_line s + 1), ex. split; [done|]. cbn zeta.
        apply parse_line_spec in Ep as (labels & features & Hex & ->).
        assert (HL : x_line s + 1 = Z.of_nat (S (length (pre ++ [raw])))) by (rewrite Hline, app_length; cbn; lia).
        split; [|split; [done|]].
        * unfold alive, with_buf. cbn [x_buf x_err x_line x_totalPoints x_numFeatures x_numLabels].
          split; [done|]. split; [congruence|]. split; [by eapply suffix_chunks_trans|]. split; [done|]. split; [done|].
          exists h, (pre ++ [raw]). done.
        * exists raw, labels, features. split; [done|]. split; [done|]. split; [done|].
          intros Hf. rewrite (Hnl2 Hf), HL. lia.
    - destruct Hpost as (Hre & Hre' & Hb & Htok).
      exists false, b, None, (x_line s), no_example. split; [done|]. cbn zeta. left.
      assert (Hf : rd_final r = EOF).
      { unfold wf in Hwf'. rewrite Hb in Hwf'. destruct (Hwf' eq_refl). congruence. }
      split; [|split; [done|]].
      + unfold alive, with_buf. cbn [x_buf x_err x_line x_totalPoints x_numFeatures x_numLabels].
        split; [done|]. split; [congruence|]. split; [by eapply suffix_chunks_trans|]. split; [done|]. split; [done|].
        exists h, pre. rewrite Hre' . rewrite Hre in Hlines. split; [done|]. split; [done|]. split; [done|]. congruence.
      + split; [|done]. rewrite Hlines, Hre. cbn. rewrite app_nil_r. lia.
  Qed.

  Lemma eof_step r s :
    alive r s -> b_err (x_buf s) = Some EOF -> rest (x_buf s) = [] ->
    exists b, x_Scan pf s = Ok (false, with_buf s b (x_err s) (x_line s) no_example) /\
      alive r (with_buf s b (x_err s) (x_line s) no_example) /\ b_err b = Some EOF /\ rest b = [].
  Proof.
    intros Ha Hb Hr. pose proof Ha as (Hwf & Hfin & Hsuf & Hxe & Hbe & h & pre & Hlines & Hline & Hhead & Hnl).
    unfold x_Scan. unfold x_Err. cbn [x_err x_buf]. rewrite Hxe, Hbe. cbn [fmap option_fmap option_map].
    destruct (bufio_Scan_eof (x_buf s) Hwf Hb) as (ok & b & -> & (Hwf' & Hfin' & Hsuf' & Hpost) & Heof).
    cbn [mbind res_bind]. assert (bufio_Err b = None) as Ee by (unfold bufio_Err; by rewrite Heof).
    rewrite Ee in Hpost |- *. destruct ok.
    { destruct Hpost as [Hne _]. done. }
    cbn [negb orb]. destruct Hpost as (_ & Hr' & _ & _).
    exists b. split; [done|]. split; [|done].
    unfold alive, with_buf. cbn [x_buf x_err x_line x_totalPoints x_numFeatures x_numLabels].
    split; [done|]. split; [congruence|]. split; [by eapply suffix_chunks_trans|]. split; [done|]. split; [done|].
    exists h, pre. rewrite Hr'. rewrite Hr in Hlines, Hnl. done.
  Qed.

  (** Reachable scanners are alive or have an error. *)
  Definition reach (r : reader) (s : Scanner) : Prop := alive r s \/ is_Some (x_Err s).

  Lemma new_reach r s : x_NewScanner r = Ok s -> reach r s.
  Proof.
    intros H. destruct (new_spec r) as (s' & Hs & _ & Hc). rewrite H in Hs. inversion Hs; subst s'.
    destruct Hc as [[Ha _]|[[He _]|(He & _ & e & Hb & _)]]; [by left| |]; right; unfold x_Err; rewrite He; [by eexists|].
    rewrite Hb. by eexists.
  Qed.
  Lemma step_reach r s : reach r s -> exists ok s', x_Scan pf s = Ok (ok, s') /\ reach r s'.
  Proof.
    intros [Ha|[e He]].
    - destruct (alive_step r s Ha) as (ok & b & e & line & ex & Hs & Hc). do 2 eexists. split; [exact Hs|].
      destruct ok; [by left; destruct Hc|]. destruct Hc as [[Hc _]|[(e' & -> & _)|(-> & _ & _ & e' & Hb & _)]].
      + by left.
      + right. by eexists.
      + right. unfold x_Err. cbn. rewrite Hb. by eexists.
    - rewrite (dead_step _ _ He). do 2 eexists. split; [done|]. right. exists e. exact He.
  Qed.
  Lemma calls_reach r n s : reach r s -> exists obs s', x_calls pf n s = Ok (obs, s') /\ reach r s' /\ length obs = n.
  Proof.
    revert s. induction n as [|n IH]; intros s Hr; cbn [x_calls].
    - by exists [], s.
    - destruct (step_reach r s Hr) as (ok & s1 & -> & Hr1). cbn [mbind res_bind].
      destruct (IH s1 Hr1) as (obs & s2 & -> & Hr2 & Hl). cbn [mbind res_bind].
      do 2 eexists. split; [done|]. split; [done|]. cbn. by rewrite Hl.
  Qed.
  Lemma run_reach r n : exists obs s, x_run pf r n = Ok (obs, s) /\ reach r s /\ length obs = n.
  Proof.
    unfold x_run. destruct (new_spec r) as (s & Hs & _). rewrite Hs. cbn [mbind res_bind].
    apply calls_reach. by apply new_reach.
  Qed.
  Lemma run_reach' r n obs s : x_run pf r n = Ok (obs, s) -> reach r s.
  Proof. destruct (run_reach r n) as (obs' & s' & H & Hr & _). rewrite H. by intros [= <- <-]. Qed.

  Lemma dead_calls s e m :
    x_Err s = Some e ->
    exists s2, x_calls pf m s = Ok (replicate m (false, no_example), s2) /\ x_Err s2 = x_Err s /\ x_line s2 = x_line s.
  Proof.
    revert s. induction m as [|m IH]; intros s He; cbn [x_calls].
    - by exists s.
    - rewrite (dead_step _ _ He). cbn [mbind res_bind].
      destruct (IH (with_buf s (x_buf s) (x_err s) (x_line s) no_example) He) as (s2 & -> & H2 & H3).
      exists s2. done.
  Qed.
  Lemma eof_calls r s m :
    alive r s -> b_err (x_buf s) = Some EOF -> rest (x_buf s) = [] ->
    exists s2, x_calls pf m s = Ok (replicate m (false, no_example), s2) /\ alive r s2 /\ x_line s2 = x_line s /\
      x_totalPoints s2 = x_totalPoints s /\ x_numFeatures s2 = x_numFeatures s /\ x_numLabels s2 = x_numLabels s.
  Proof.
    revert s. induction m as [|m IH]; intros s Ha Hb Hr; cbn [x_calls].
    - by exists s.
    - destruct (eof_step r s Ha Hb Hr) as (b & -> & Ha' & Hb' & Hr'). cbn [mbind res_bind].
      destruct (IH (with_buf s b (x_err s) (x_line s) no_example) Ha' Hb' Hr') as (s2 & -> & H2 & H3 & H4).
      exists s2. done.
  Qed.
  Lemma alive_Err r s : alive r s -> x_Err s = None.
  Proof. intros (_ & _ & _ & H1 & H2 & _). unfold x_Err. by rewrite H1, H2. Qed.

  Lemma sticky r n obs s s1 :
    x_run pf r n = Ok (obs, s) -> x_Scan pf s = Ok (false, s1) ->
    forall m, exists s2, x_calls pf m s1 = Ok (replicate m (false, no_example), s2) /\
      x_Err s2 = x_Err s1 /\ x_line s2 = x_line s1.
  Proof.
    intros Hrun Hscan m. apply run_reach' in Hrun as [Ha|[e He]].
    - destruct (alive_step r s Ha) as (ok & b & e & line & ex & Hs & Hc). rewrite Hscan in Hs.
      inversion Hs; subst. destruct Hc as [(Ha' & _ & _ & _ & _ & Hb & Hr)|[(e' & -> & _)|(-> & _ & _ & e' & Hb & _)]].
      + destruct (eof_calls r _ m Ha' Hb Hr) as (s2 & H1 & H2 & H3 & _). exists s2.
        rewrite (alive_Err _ _ H2), (alive_Err _ _ Ha'). done.
      + by eapply (dead_calls _ e').
      + apply (dead_calls _ (ErrScanner e')). unfold x_Err. cbn. by rewrite Hb.
    - rewrite (dead_step _ _ He) in Hscan. inversion Hscan; subst. by apply (dead_calls _ e).
  Qed.

  (** Delivery of all the lines *)
  Lemma calls_lines r raws es s k :
    rd_final r = EOF -> no_stall (rd_chunks r) -> lines_fit (rd_data r) ->
    alive r s -> drop (Z.to_nat (x_line s)) (raw_lines (rd_data r)) = raws ->
    Forall2 (fun raw e => example_line pf (x_numFeatures s) (x_numLabels s) (dropCR raw) (fst e) (snd e)) raws es ->
    exists s', x_calls pf (length es + k) s =
        Ok (map (fun e => (true, example (fst e) (snd e))) es ++ replicate k (false, no_example), s') /\
      x_Err s' = None /\ x_line s' = x_line s + Z.of_nat (length es) /\
      x_totalPoints s' = x_totalPoints s /\ x_numFeatures s' = x_numFeatures s /\ x_numLabels s' = x_numLabels s.
  Proof.
    intros Hf Hns Hfit. revert raws s. induction es as [|e es IH]; intros raws s Ha Hdrop HF.
    - apply Forall2_nil_inv_r in HF as ->. cbn [length map app Nat.add]. destruct k as [|k].
      + exists s. cbn. split; [done|]. split; [by eapply alive_Err|]. split; [lia|done].
      + cbn [x_calls]. destruct (alive_step r s Ha) as (ok & b & e & line & ex & Hs & Hc).
        rewrite Hs. cbn [mbind res_bind]. destruct ok.
        { destruct Hc as (_ & _ & raw & ls & fs & Hlk & _). exfalso.
          rewrite <- (Nat.add_0_r (Z.to_nat (x_line s))) in Hlk. rewrite <- lookup_drop, Hdrop in Hlk. done. }
        destruct Hc as [(Ha' & -> & _ & -> & _ & Hb & Hr)|[(e' & _ & _ & _ & raw & Hlk & _)|(_ & _ & _ & e' & Hb & Hsf)]].
        * destruct (eof_calls r _ k Ha' Hb Hr) as (s2 & -> & H2 & H3 & H4). exists s2. cbn [mbind res_bind].
          split; [done|]. split; [by eapply alive_Err|]. cbn in *. split; [lia|done].
        * exfalso. rewrite <- (Nat.add_0_r (Z.to_nat (x_line s))) in Hlk. rewrite <- lookup_drop, Hdrop in Hlk. done.
        * exfalso. destruct Hsf as [->|[[_ Hn]|[_ Hn]]]; [|done|done].
          unfold bufio_Err in Hb. destruct (b_err b) as [[]|]; congruence.
    - apply Forall2_cons_inv_r in HF as (raw & raws' & Hraw & HF' & ->). cbn [length map app Nat.add].
      cbn [x_calls]. destruct (alive_step r s Ha) as (ok & b & e' & line & ex & Hs & Hc).
      assert (Hlk : raw_lines (rd_data r) !! Z.to_nat (x_line s) = Some raw).
      { rewrite <- (Nat.add_0_r (Z.to_nat (x_line s))). rewrite <- lookup_drop, Hdrop. done. }
      rewrite Hs. cbn [mbind res_bind]. destruct ok.
      + destruct Hc as (Ha' & -> & raw' & ls & fs & Hlk' & Hex & -> & _).
        rewrite Hlk in Hlk'. inversion Hlk'; subst raw'.
        assert (example ls fs = example (fst e) (snd e)) as Heq.
        { assert (H1 : parse_line pf (x_numFeatures s) (x_numLabels s) (dropCR raw) = (example ls fs, None)) by (apply parse_line_spec; eauto).
          assert (H2 : parse_line pf (x_numFeatures s) (x_numLabels s) (dropCR raw) = (example (fst e) (snd e), None)) by (apply parse_line_spec; eauto).
          congruence. }
        assert (0 <= x_line s) as Hpos by (destruct Ha as (_ & _ & _ & _ & _ & h & pre & _ & -> & _); lia).
        destruct (IH raws' (with_buf s b e' (x_line s + 1) (example ls fs)) Ha') as (s2 & -> & H2 & H3 & H4).
        { cbn [x_line with_buf]. replace (Z.to_nat (x_line s + 1)) with (Z.to_nat (x_line s) + 1)%nat by lia.
          rewrite <- drop_drop, Hdrop. done. }
        { done. }
        cbn [mbind res_bind]. exists s2. cbn [x_example with_buf x_line x_totalPoints x_numFeatures x_numLabels] in *.
        rewrite Heq. split; [done|]. split; [done|]. split; [lia|done].
      + exfalso. destruct Hc as [(_ & -> & Hlen & _)|[(_ & _ & _ & _ & raw' & Hlk' & Hno)|(_ & _ & _ & e2 & Hb & Hsf)]].
        * apply lookup_lt_Some in Hlk. lia.
        * rewrite Hlk in Hlk'. inversion Hlk'; subst. by eapply Hno.
        * destruct Hsf as [->|[[_ Hn]|[_ Hn]]]; [|done|done].
          unfold bufio_Err in Hb. destruct (b_err b) as [[]|]; congruence.
  Qed.

  Lemma int_text_det t z z' : int_text t z -> int_text t z' -> z = z'.
  Proof. rewrite <- !atoi_spec. congruence. Qed.
  Lemma header_det t P F L P' F' L' : header_line t P F L -> header_line t P' F' L' -> P = P' /\ F = F' /\ L = L'.
  Proof.
    intros (a & b & c & Ht & Ha & Hb & Hc & _) (a' & b' & c' & Ht' & Ha' & Hb' & Hc' & _).
    assert ([a; b; c] = [a'; b'; c']) as Heq.
    { assert (HX : forall x y z X Y Z0, int_text x X -> int_text y Y -> int_text z Z0 -> split_on chSP (join chSP [x; y; z]) = [x; y; z]).
      { intros. apply split_on_join; [done|]. repeat constructor; eapply int_text_no; eauto; unfold chSP; lia. }
      rewrite <- (HX _ _ _ _ _ _ Ha Hb Hc), <- (HX _ _ _ _ _ _ Ha' Hb' Hc'). congruence. }
    inversion Heq; subst. split; [by eapply int_text_det|]. split; by eapply int_text_det.
  Qed.

  Lemma run_lines r h raws es P F L k :
    rd_final r = EOF -> no_stall (rd_chunks r) -> lines_fit (rd_data r) ->
    raw_lines (rd_data r) = h :: raws -> header_line (dropCR h) P F L ->
    Forall2 (fun raw e => example_line pf F L (dropCR raw) (fst e) (snd e)) raws es ->
    exists s', x_run pf r (length es + k) =
        Ok (map (fun e => (true, example (fst e) (snd e))) es ++ replicate k (false, no_example), s') /\
      x_Err s' = None /\ x_line s' = 1 + Z.of_nat (length es) /\
      x_totalPoints s' = P /\ x_numFeatures s' = F /\ x_numLabels s' = L.
  Proof.
    intros Hf Hns Hfit Hlines Hh HF. unfold x_run. destruct (new_spec r) as (s & -> & _ & Hc).
    cbn [mbind res_bind]. destruct Hc as [[Ha Hl]|[(_ & _ & Hbad)|(_ & _ & e & Hb & Hsf)]].
    - assert (x_totalPoints s = P /\ x_numFeatures s = F /\ x_numLabels s = L) as (HP' & HF' & HL').
      { destruct Ha as (_ & _ & _ & _ & _ & h' & pre & Hlines' & _ & Hh' & _).
        rewrite Hlines in Hlines'. inversion Hlines'; subst h'. by eapply header_det. }
      destruct (calls_lines r raws es s k Hf Hns Hfit Ha) as (s2 & Hs2 & H2 & H3 & H4 & H5 & H6).
      { rewrite Hl, Hlines. done. }
      { by rewrite HF', HL'. }
      exists s2. split; [done|]. split; [done|]. split; [lia|]. split; [congruence|]. split; congruence.
    - exfalso. destruct Hbad as [[Hd _]|(h' & Hh' & Hno)].
      + rewrite Hd in Hlines. done.
      + rewrite Hlines in Hh'. inversion Hh'; subst. by eapply Hno.
    - exfalso. destruct Hsf as [->|[[_ Hn]|[_ Hn]]]; [|done|done].
      unfold bufio_Err in Hb. destruct (b_err (x_buf s)) as [[]|]; congruence.
  Qed.

  Lemma run_bounds r n obs s s1 :
    x_run pf r n = Ok (obs, s) -> x_Scan pf s = Ok (true, s1) ->
    exists labels features, x_example s1 = example labels features /\
      Forall (fun l => 0 <= l < x_numLabels s1) labels /\
      features <> [] /\ Forall (fun p => 0 <= iv_index p < x_numFeatures s1) features /\
      0 < x_totalPoints s1 /\ 0 < x_numFeatures s1 /\ 0 < x_numLabels s1.
  Proof.
    intros Hrun Hscan. apply run_reach' in Hrun as [Ha|[e He]].
    - destruct (alive_step r s Ha) as (ok & b & e & line & ex & Hs & Hc). rewrite Hscan in Hs.
      inversion Hs; subst. destruct Hc as (_ & _ & raw & ls & fs & _ & (lts & fts & _ & Hne & HL & HF) & -> & _).
      exists ls, fs. cbn. split; [done|].
      destruct Ha as (_ & _ & _ & _ & _ & h & pre & _ & _ & (a & b' & c & _ & _ & _ & _ & Hpos) & _).
      split; [|split; [|split; [|done]]].
      + clear -HL. induction HL as [|? ? ? ? [_ H]]; by constructor.
      + intros ->. inversion HF; subst. done.
      + clear -HF. induction HF as [|? ? ? ? (ti & tv & _ & _ & H & _)]; by constructor.
    - rewrite (dead_step _ _ He) in Hscan. done.
  Qed.

  Lemma lines_complete D k raw :
    raw_lines D !! k = Some raw -> (k < newlines D)%nat ->
    exists before after, D = before ++ raw ++ chNL :: after /\ newlines before = k /\ ~ chNL ∈ raw.
  Proof.
    revert D. induction k as [|k IH]; intros D Hlk Hn.
    - destruct (decide (D = [])) as [->|Hne]; [done|]. rewrite raw_lines_next in Hlk by done.
      cbn in Hlk. inversion Hlk; subst raw. unfold next_line.
      destruct (index_byte chNL D) as [i|] eqn:Ei.
      + cbn [fst]. destruct (index_byte_Some _ _ _ Ei) as (H1 & H2 & H3).
        exists [], (drop (S i) D). cbn [app]. split; [by rewrite take_drop_middle|]. split; [done|done].
      + apply index_byte_None in Ei. rewrite (newlines_none _ Ei) in Hn. lia.
    - destruct (decide (D = [])) as [->|Hne]; [done|]. rewrite raw_lines_next in Hlk by done.
      cbn in Hlk. destruct (index_byte chNL D) as [i|] eqn:Ei.
      + pose proof (newlines_next _ _ Ei) as Hnl. rewrite Hnl in Hn.
        destruct (IH _ Hlk ltac:(lia)) as (before & after & H1 & H2 & H3).
        unfold next_line in H1. rewrite Ei in H1. cbn [snd] in H1.
        destruct (index_byte_Some _ _ _ Ei) as (E1 & E2 & E3).
        exists (take i D ++ chNL :: before), after. split.
        * rewrite <- app_assoc. cbn [app]. rewrite <- H1. by rewrite take_drop_middle.
        * split; [|done]. rewrite newlines_app, (newlines_none _ E2). cbn [Nat.add].
          unfold newlines in *. rewrite filter_cons_True by done. cbn. by rewrite H2.
      + unfold next_line in Hlk. by rewrite Ei in Hlk.
  Qed.

  Lemma run_truncated r n obs s ok s1 :
    rd_final r <> EOF ->
    x_run pf r n = Ok (obs, s) -> x_Scan pf s = Ok (ok, s1) ->
    if ok then exists before raw after t labels features,
        rd_data r = before ++ raw ++ chNL :: after /\ ~ chNL ∈ raw /\
        Z.of_nat (newlines before) + 1 = x_line s1 /\
        line_text raw t /\ example_line pf (x_numFeatures s1) (x_numLabels s1) t labels features /\
        x_example s1 = example labels features
    else x_Err s1 <> None.
  Proof.
    intros Hf Hrun Hscan. apply run_reach' in Hrun as [Ha|[e He]].
    - destruct (alive_step r s Ha) as (ok' & b & e & line & ex & Hs & Hc). rewrite Hscan in Hs.
      inversion Hs; subst. destruct ok'.
      + destruct Hc as (_ & -> & raw & ls & fs & Hlk & Hex & -> & Hn). specialize (Hn Hf).
        assert (0 <= x_line s) as Hpos by (destruct Ha as (_ & _ & _ & _ & _ & h & pre & _ & -> & _); lia).
        destruct (lines_complete _ _ _ Hlk ltac:(lia)) as (before & after & H1 & H2 & H3).
        exists before, raw, after, (dropCR raw), ls, fs. cbn. split; [done|]. split; [done|]. split; [lia|].
        split; [apply dropCR_spec|]. done.
      + destruct Hc as [(_ & _ & _ & _ & Hf' & _)|[(e' & -> & _)|(-> & _ & _ & e' & Hb & _)]]; [done|done|].
        unfold x_Err. cbn. by rewrite Hb.
    - rewrite (dead_step _ _ He) in Hscan. inversion Hscan; subst. 
      change (x_Err s <> None). congruence.
  Qed.

  (** the cause of a failure that is not due to the contents of the lines *)
  Lemma run_failure r n obs s e :
    x_run pf r n = Ok (obs, s) -> x_Err s = Some (ErrScanner e) -> scan_failure r e.
  Proof.
    assert (Hinv : forall n s0 obs s, (alive r s0 \/ exists e0, x_Err s0 = Some e0 /\ forall e, e0 = ErrScanner e -> scan_failure r e) ->
      x_calls pf n s0 = Ok (obs, s) -> x_Err s = Some (ErrScanner e) -> scan_failure r e).
    { clear n obs s. induction n as [|n IH]; intros s0 obs s H0; cbn [x_calls].
      - intros [= <- <-] He. destruct H0 as [Ha|(e0 & He0 & H0)].
        + rewrite (alive_Err _ _ Ha) in He. done.
        + apply H0. congruence.
      - destruct H0 as [Ha|(e0 & He0 & H0)].
        + destruct (alive_step r s0 Ha) as (ok & b & e' & line & ex & -> & Hc). cbn [mbind res_bind].
          destruct (x_calls pf n _) as [[obs' s']|] eqn:Ec; cbn [mbind res_bind]; [|done].
          intros [= <- <-]. eapply IH; [|exact Ec].
          destruct ok; [left; by destruct Hc|].
          destruct Hc as [(Ha' & _)|[(e1 & -> & He1 & _)|(-> & _ & _ & e1 & Hb & Hsf)]].
          * by left.
          * right. exists e1. split; [done|]. intros e2 ->. naive_solver.
          * right. exists (ErrScanner e1). unfold x_Err. cbn. rewrite Hb. split; [done|]. by intros e2 [= ->].
        + rewrite (dead_step _ _ He0). cbn [mbind res_bind].
          destruct (x_calls pf n _) as [[obs' s']|] eqn:Ec; cbn [mbind res_bind]; [|done].
          intros [= <- <-]. eapply IH; [|exact Ec]. right. exists e0. done. }
    unfold x_run. destruct (new_spec r) as (s0 & -> & _ & Hc). cbn [mbind res_bind].
    apply Hinv. destruct Hc as [[Ha _]|[(He & _)|(He & _ & e1 & Hb & Hsf)]].
    - by left.
    - right. exists ErrMalformedHeader. unfold x_Err. rewrite He. done.
    - right. exists (ErrScanner e1). unfold x_Err. rewrite He, Hb. split; [done|]. by intros e2 [= ->].
  Qed.

  Lemma run_no_fields r n obs s : x_run pf r n = Ok (obs, s) -> x_Err s <> Some ErrNotEnoughFields.
  Proof.
    assert (Hinv : forall n s0 obs s, (alive r s0 \/ exists e0, x_Err s0 = Some e0 /\ e0 <> ErrNotEnoughFields) ->
      x_calls pf n s0 = Ok (obs, s) -> x_Err s <> Some ErrNotEnoughFields).
    { clear n obs s. induction n as [|n IH]; intros s0 obs s H0; cbn [x_calls].
      - intros [= <- <-]. destruct H0 as [Ha|(e0 & He0 & H0)].
        + rewrite (alive_Err _ _ Ha). done.
        + congruence.
      - destruct H0 as [Ha|(e0 & He0 & H0)].
        + destruct (alive_step r s0 Ha) as (ok & b & e' & line & ex & -> & Hc). cbn [mbind res_bind].
          destruct (x_calls pf n _) as [[obs' s']|] eqn:Ec; cbn [mbind res_bind]; [|done].
          intros [= <- <-]. eapply IH; [|exact Ec].
          destruct ok; [left; by destruct Hc|].
          destruct Hc as [(Ha' & _)|[(e1 & -> & He1 & _)|(-> & _ & _ & e1 & Hb & Hsf)]].
          * by left.
          * right. exists e1. split; [done|]. naive_solver.
          * right. exists (ErrScanner e1). unfold x_Err. cbn. rewrite Hb. done.
        + rewrite (dead_step _ _ He0). cbn [mbind res_bind].
          destruct (x_calls pf n _) as [[obs' s']|] eqn:Ec; cbn [mbind res_bind]; [|done].
          intros [= <- <-]. eapply IH; [|exact Ec]. right. exists e0. done. }
    unfold x_run. destruct (new_spec r) as (s0 & -> & _ & Hc). cbn [mbind res_bind].
    apply Hinv. destruct Hc as [[Ha _]|[(He & _)|(He & _ & e1 & Hb & Hsf)]].
    - by left.
    - right. exists ErrMalformedHeader. unfold x_Err. rewrite He. done.
    - right. exists (ErrScanner e1). unfold x_Err. rewrite He, Hb. done.
  Qed.

  Lemma new_line r s :
    x_NewScanner r = Ok s ->
    (x_line s = 1 /\ forall e, x_Err s <> Some (ErrScanner e)) \/
    (x_line s = 0 /\ exists e, x_Err s = Some (ErrScanner e) /\ scan_failure r e).
  Proof.
    intros H. destruct (new_spec r) as (s' & Hs & _ & Hc). rewrite H in Hs. inversion Hs; subst s'.
    destruct Hc as [[Ha Hl]|[(He & Hl & _)|(He & Hl & e & Hb & Hsf)]].
    - left. rewrite (alive_Err _ _ Ha). done.
    - left. unfold x_Err. rewrite He. done.
    - right. split; [done|]. exists e. unfold x_Err. rewrite He, Hb. done.
  Qed.

  Lemma run_line r n obs s ok s1 :
    x_run pf r n = Ok (obs, s) -> x_Scan pf s = Ok (ok, s1) ->
    (x_line s1 = x_line s + 1 /\ x_Err s = None /\
     exists raw t, raw_lines (rd_data r) !! Z.to_nat (x_line s1 - 1) = Some raw /\ line_text raw t /\
       if ok then x_Err s1 = None /\ exists labels features, example_line pf (x_numFeatures s1) (x_numLabels s1) t labels features /\
                    x_example s1 = example labels features
       else is_Some (x_Err s1) /\ (forall e, x_Err s1 <> Some (ErrScanner e)) /\
            forall labels features, ~ example_line pf (x_numFeatures s1) (x_numLabels s1) t labels features) \/
    (x_line s1 = x_line s /\ ok = false /\
     (x_Err s = None -> x_Err s1 = None -> x_line s1 = Z.of_nat (length (raw_lines (rd_data r)))) /\
     (x_Err s = None -> x_Err s1 = None \/ exists e, x_Err s1 = Some (ErrScanner e))).
  Proof.
    intros Hrun Hscan. apply run_reach' in Hrun as [Ha|[e He]].
    - pose proof (alive_Err _ _ Ha) as HE.
      destruct (alive_step r s Ha) as (ok' & b & e & line & ex & Hs & Hc). rewrite Hscan in Hs.
      inversion Hs; subst.
      assert (0 <= x_line s) as Hpos by (destruct Ha as (_ & _ & _ & _ & _ & h & pre & _ & -> & _); lia).
      destruct ok'.
      + destruct Hc as (Ha' & -> & raw & ls & fs & Hlk & Hex & -> & Hn). left. cbn [x_line with_buf].
        split; [done|]. split; [done|]. exists raw, (dropCR raw).
        replace (x_line s + 1 - 1) with (x_line s) by lia. split; [done|]. split; [apply dropCR_spec|].
        split; [by eapply alive_Err|]. exists ls, fs. done.
      + destruct Hc as [(Ha' & -> & Hlen & -> & _)|[(e' & -> & He' & -> & raw & Hlk & Hno)|(-> & -> & -> & e' & Hb & _)]].
        * right. cbn [x_line with_buf]. split; [done|]. split; [done|]. split; [done|]. intros _. left. by eapply alive_Err.
        * left. cbn [x_line with_buf]. split; [done|]. split; [done|]. exists raw, (dropCR raw).
          replace (x_line s + 1 - 1) with (x_line s) by lia. split; [done|]. split; [apply dropCR_spec|].
          unfold x_Err. cbn [x_err with_buf]. split; [by eexists|]. split; [|done].
          intros e2 [= ->]. naive_solver.
        * right. cbn [x_line with_buf]. split; [done|]. split; [done|].
          assert (x_Err (with_buf s b None (x_line s) no_example) = Some (ErrScanner e')) as -> by (unfold x_Err; cbn; by rewrite Hb).
          split; [done|]. intros _. right. eauto.
    - rewrite (dead_step _ _ He) in Hscan. inversion Hscan; subst. right. cbn [x_line with_buf].
      split; [done|]. split; [done|]. split; congruence.
  Qed.

  Lemma calls_count r n s obs s' :
    reach r s -> x_calls pf n s = Ok (obs, s') -> alive r s' ->
    x_line s' = x_line s + Z.of_nat (length (List.filter fst obs)) /\ alive r s.
  Proof.
    revert s obs. induction n as [|n IH]; intros s obs Hr; cbn [x_calls].
    - intros [= <- <-] Ha. cbn. split; [lia|done].
    - destruct Hr as [Ha|[e0 He0]].
      + destruct (alive_step r s Ha) as (ok & b & e' & line & ex & Hs & Hc). rewrite Hs. cbn [mbind res_bind].
        destruct (x_calls pf n _) as [[obs' s2]|] eqn:Ec; cbn [mbind res_bind]; [|done].
        intros [= <- <-] Ha2.
        assert (Hr1 : reach r (with_buf s b e' line ex)).
        { destruct (step_reach r s (or_introl Ha)) as (ok2 & s2' & Hs2 & Hr2). rewrite Hs in Hs2. by inversion Hs2; subst. }
        destruct (IH _ _ Hr1 Ec Ha2) as [Hl Ha1]. split; [|done]. rewrite Hl. cbn [x_line with_buf].
        destruct ok.
        * destruct Hc as (_ & -> & _). cbn [List.filter fst]. cbn [length]. lia.
        * cbn [List.filter fst]. destruct Hc as [(_ & -> & _)|[(e2 & -> & _)|(-> & -> & _)]]; [done| |done].
          apply alive_Err in Ha1. done.
      + rewrite (dead_step _ _ He0). cbn [mbind res_bind].
        destruct (x_calls pf n _) as [[obs' s2]|] eqn:Ec; cbn [mbind res_bind]; [|done].
        intros [= <- <-] Ha2. destruct (IH _ _ (or_intror (mk_is_Some _ _ (He0 : x_Err (with_buf s (x_buf s) (x_err s) (x_line s) no_example) = Some e0))) Ec Ha2) as [_ Ha1].
        apply alive_Err in Ha1. change (x_Err s = None) in Ha1. congruence.
  Qed.

  Lemma run_count r n obs s s1 :
    x_run pf r n = Ok (obs, s) -> x_Scan pf s = Ok (false, s1) -> x_Err s1 = None ->
    length (raw_lines (rd_data r)) = S (length (List.filter fst obs)).
  Proof.
    intros Hrun Hscan He1. pose proof Hrun as Hrun'. apply run_reach' in Hrun as [Ha|[e He]].
    - destruct (alive_step r s Ha) as (ok & b & e & line & ex & Hs & Hc). rewrite Hscan in Hs. inversion Hs; subst.
      destruct Hc as [(Ha' & -> & Hlen & _)|[(e2 & -> & _)|(-> & _ & _ & e2 & Hb & _)]]; [|done|].
      + unfold x_run in Hrun'. destruct (new_spec r) as (s0 & Hs0 & _ & Hc).
        pose proof (new_reach _ _ Hs0) as Hr0. rewrite Hs0 in Hrun'. cbn [mbind res_bind] in Hrun'.
        destruct (calls_count r n s0 obs s Hr0 Hrun' Ha) as [Hl Ha0].
        destruct Hc as [[_ Hl0]|[(Hx & _)|(Hx & _ & e3 & Hb & _)]].
        * lia.
        * apply alive_Err in Ha0. unfold x_Err in Ha0. by rewrite Hx in Ha0.
        * apply alive_Err in Ha0. unfold x_Err in Ha0. by rewrite Hx, Hb in Ha0.
      + unfold x_Err in He1. cbn in He1. by rewrite Hb in He1.
    - rewrite (dead_step _ _ He) in Hscan. inversion Hscan; subst. change (x_Err s = None) in He1. congruence.
  Qed.
End calls.

(** * Writing *)
Lemma digits_of_spec fuel z :
  0 <= z < 10 ^ Z.of_nat fuel -> (0 < fuel)%nat ->
  digits_of fuel z <> [] /\ Forall (fun c => 48 <= c <= 57) (digits_of fuel z) /\ decimal (digits_of fuel z) = z.
Proof.
  revert z. induction fuel as [|fuel IH]; intros z Hz Hf; [lia|]. cbn [digits_of].
  destruct (Z.ltb_spec z 10) as [Hlt|Hge].
  - split; [done|]. split; [constructor; [lia|constructor]|]. unfold decimal. cbn [fold_left]. lia.
  - destruct fuel as [|fuel]; [change (10 ^ Z.of_nat 1) with 10 in Hz; lia|].
    destruct (IH (z / 10)) as (H1 & H2 & H3); [|lia|].
    { rewrite Nat2Z.inj_succ, Z.pow_succ_r in Hz by lia. split; [apply Z.div_pos; lia|].
      apply Z.div_lt_upper_bound; lia. }
    pose proof (Z.mod_pos_bound z 10 ltac:(lia)) as Hm.
    split; [by destruct (digits_of (S fuel) (z / 10))|]. split.
    + apply Forall_app. split; [done|]. constructor; [lia|constructor].
    + unfold decimal in *. rewrite fold_left_app, H3. cbn [fold_left].
      rewrite (Z.div_mod z 10) at 3 by lia. lia.
Qed.
Lemma write_nat_spec z : 0 <= z <= maxInt64 -> int_text (write_nat z) z.
Proof.
  intros Hz. destruct (digits_of_spec 20 z) as (H1 & H2 & H3); [|lia|].
  { change (10 ^ Z.of_nat 20) with 100000000000000000000. unfold maxInt64 in Hz. lia. }
  exists (write_nat z). split; [done|]. split; [done|]. split; [unfold in_int64, minInt64, maxInt64 in *; lia|].
  left. split; [done|]. done.
Qed.

Lemma raw_lines_concat ts :
  Forall (fun t => ~ chNL ∈ t) ts -> raw_lines (concat (map (fun t => t ++ [chNL]) ts)) = ts.
Proof.
  assert (H1 : forall t d, ~ chNL ∈ t -> raw_lines (t ++ chNL :: d) = t :: raw_lines d).
  { induction t as [|c t IH]; intros d Hn; cbn [app raw_lines].
    - by rewrite Z.eqb_refl.
    - apply not_elem_of_cons in Hn as [Hc Ht]. destruct (Z.eqb_spec c chNL); [congruence|].
      by rewrite IH. }
  induction 1 as [|t ts Ht Hts IH]; [done|]. cbn [map concat]. rewrite <- app_assoc. cbn [app].
  rewrite H1 by done. by rewrite IH.
Qed.

Lemma dropCR_id t : ~ chCR ∈ t -> dropCR t = t.
Proof.
  intros H. unfold dropCR. destruct (last t) as [c|] eqn:E; [|done].
  destruct (Z.eqb_spec c chCR) as [->|]; [|done]. exfalso. apply H. apply last_Some in E as [l ->].
  apply elem_of_app. right. left.
Qed.

Lemma write_nat_no z c : 0 <= z <= maxInt64 -> c < 43 \/ c = 44 \/ 57 < c -> ~ c ∈ write_nat z.
Proof. intros Hz Hc. eapply int_text_no; [by apply write_nat_spec|done]. Qed.

Lemma write_example_spec pf fmt F L e :
  F <= maxInt64 -> L <= maxInt64 -> writable pf fmt F L e ->
  example_line pf F L (write_example fmt e) (fst e) (snd e) /\
  ~ chNL ∈ write_example fmt e /\ ~ chCR ∈ write_example fmt e.
Proof.
  intros HFm HLm (HL & Hne & HF). destruct e as [ls fs]. cbn [fst snd] in *. split.
  - exists (map write_nat ls), (map (write_feature fmt) fs). split; [done|]. split; [by destruct fs|]. split.
    + clear -HL HLm. induction HL as [|l ls H _ IH]; [constructor|]. constructor; [|done].
      split; [|done]. apply write_nat_spec. lia.
    + clear -HF HFm. induction HF as [|p fs (H1 & H2 & H3) _ IH]; [constructor|]. constructor; [|done].
      exists (write_nat (iv_index p)), (fmt (iv_value p)). split; [done|].
      split; [apply write_nat_spec; lia|]. split; [done|].
      rewrite Forall_forall in H3. split; [|split; [|done]]; intros Hin; apply H3 in Hin; naive_solver.
  - assert (Hgen : forall c, c = chNL \/ c = chCR -> ~ c ∈ write_example fmt (ls, fs)).
    { intros c Hc. unfold write_example. cbn [fst snd]. apply join_no_sep; [unfold chSP, chNL, chCR in *; lia|].
      constructor.
      - apply join_no_sep; [unfold chComma, chNL, chCR in *; lia|]. clear -HL HLm Hc.
        induction HL as [|l ls H _ IH]; [constructor|]. constructor; [|done].
        apply write_nat_no; [lia|]. unfold chNL, chCR in *. lia.
      - clear -HF HFm Hc. induction HF as [|p fs (H1 & H2 & H3) _ IH]; [constructor|]. constructor; [|done].
        unfold write_feature. rewrite elem_of_app, elem_of_cons. intros [H|[H|H]].
        + revert H. apply write_nat_no; [lia|]. unfold chNL, chCR in *. lia.
        + unfold chNL, chCR, chColon in *. lia.
        + rewrite Forall_forall in H3. apply H3 in H. naive_solver. }
    split; apply Hgen; auto.
Qed.

Lemma roundtrip pf fmt P F L es chunks early k :
  0 < P <= maxInt64 -> 0 < F <= maxInt64 -> 0 < L <= maxInt64 ->
  Forall (writable pf fmt F L) es -> no_stall chunks ->
  Forall (fun e => Z.of_nat (length (write_example fmt e)) < 65536) es ->
  exists s, x_run pf (mkReader (write_file fmt P F L es) chunks EOF early) (length es + k) =
      Ok (map (fun e => (true, example (fst e) (snd e))) es ++ replicate k (false, no_example), s) /\
    x_Err s = None /\ x_totalPoints s = P /\ x_numFeatures s = F /\ x_numLabels s = L.
Proof.
  intros HP HF HL Hw Hns Hfit.
  assert (Hhead : header_line (write_header P F L) P F L).
  { exists (write_nat P), (write_nat F), (write_nat L). split; [done|].
    split; [apply write_nat_spec; lia|]. split; [apply write_nat_spec; lia|]. split; [apply write_nat_spec; lia|]. lia. }
  assert (Hhno : forall c, c = chNL \/ c = chCR -> ~ c ∈ write_header P F L).
  { intros c Hc. unfold write_header. apply join_no_sep; [unfold chSP, chNL, chCR in *; lia|].
    repeat constructor; (apply write_nat_no; [lia|]; unfold chNL, chCR in *; lia). }
  assert (Hlen : forall z, (length (write_nat z) <= 20)%nat).
  { assert (forall n z, (length (digits_of n z) <= n)%nat) as Hd.
    { induction n as [|n IH]; intros z; cbn [digits_of]; [done|]. destruct (z <? 10); [cbn; lia|].
      rewrite app_length. specialize (IH (z / 10)). cbn. lia. }
    intros z. apply Hd. }
  assert (Hlines : raw_lines (write_file fmt P F L es) = write_header P F L :: map (write_example fmt) es).
  { unfold write_file. apply raw_lines_concat. constructor; [by apply Hhno; left|].
    clear -Hw HF HL. induction Hw as [|e es H _ IH]; [constructor|]. constructor; [|done].
    destruct (write_example_spec pf fmt F L e ltac:(lia) ltac:(lia) H) as (_ & H1 & _). done. }
  destruct (run_lines pf (mkReader (write_file fmt P F L es) chunks EOF early) (write_header P F L)
              (map (write_example fmt) es) es P F L k) as (s & H1 & H2 & _ & H3 & H4 & H5); try done.
  - unfold lines_fit. cbn [rd_data]. rewrite Hlines. constructor.
    + unfold write_header. cbn [join]. rewrite !app_length. cbn [length]. rewrite app_length. cbn [length].
      pose proof (Hlen P). pose proof (Hlen F). pose proof (Hlen L). lia.
    + by rewrite Forall_map.
  - rewrite dropCR_id; [done|]. apply Hhno. by right.
  - clear -Hw HF HL. induction Hw as [|e es H _ IH]; [constructor|]. constructor; [|done].
    destruct (write_example_spec pf fmt F L e ltac:(lia) ltac:(lia) H) as (H1 & _ & H2).
    by rewrite dropCR_id.
  - exists s. done.
Qed.

Lemma scanner_total pf r n : exists obs s, x_run pf r n = Ok (obs, s) /\ length obs = n.
Proof. destruct (run_reach pf r n) as (obs & s & H1 & _ & H2). by exists obs, s. Qed.

Lemma scan_file pf r h ht lines es P F L k :
  rd_final r = EOF -> no_stall (rd_chunks r) -> lines_fit (rd_data r) ->
  raw_lines (rd_data r) = h :: lines -> line_text h ht -> header_line ht P F L ->
  Forall2 (fun raw e => exists t, line_text raw t /\ example_line pf F L t (fst e) (snd e)) lines es ->
  exists s, x_run pf r (length es + k) =
      Ok (map (fun e => (true, example (fst e) (snd e))) es ++ replicate k (false, no_example), s) /\
    x_Err s = None /\ x_totalPoints s = P /\ x_numFeatures s = F /\ x_numLabels s = L.
Proof.
  intros Hf Hns Hfit Hl Ht Hh HF. apply line_text_det in Ht as ->.
  destruct (run_lines pf r h lines es P F L k) as (s & H1 & H2 & _ & H3); try done.
  - eapply Forall2_impl; [exact HF|]. intros raw e (t & Ht & He). by apply line_text_det in Ht as ->.
  - exists s. done.
Qed.

Lemma total_points_refuted : exists pf r n obs s s1,
  rd_final r = EOF /\ x_run pf r n = Ok (obs, s) /\ x_Scan pf s = Ok (false, s1) /\ x_Err s1 = None /\
  Z.of_nat (length (List.filter fst obs)) <> x_totalPoints s1.
Proof.
  exists (fun _ => Some fone), (mkReader [50;32;52;32;51;10;49;32;48;58;55] [] EOF false), 1%nat.
  do 3 eexists. split; [done|]. split; [vm_compute; reflexivity|]. split; [vm_compute; reflexivity|].
  split; vm_compute; [reflexivity|discriminate].
Qed.
