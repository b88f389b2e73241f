(** The line scanner of the standard library delivers the lines of its input. *)
From Verif.Model Require Import Bufio.
From Verif.Spec Require Import XcSpec.
From Coq Require Import ZifyNat ZifyBool Lia.

Definition rest (s : BufScanner) : bytes := b_cont s ++ rd_data (b_rd s).
Definition next_line (data : bytes) : bytes * bytes :=
  match index_byte chNL data with
  | Some i => (take i data, drop (S i) data)
  | None => (data, [])
  end.

Lemma index_byte_Some c data i :
  index_byte c data = Some i -> data !! i = Some c /\ ~ c ∈ take i data /\ (i < length data)%nat.
Proof.
  revert i. induction data as [|x data IH]; intros i; cbn [index_byte]; [done|].
  destruct (Z.eqb_spec x c) as [->|Hne].
  - intros [= <-]. cbn. split; [done|]. split; [apply not_elem_of_nil|lia].
  - destruct (index_byte c data) as [j|]; cbn; [|done]. intros [= <-].
    destruct (IH j eq_refl) as (H1 & H2 & H3). cbn. split; [done|]. split; [|lia].
    rewrite elem_of_cons. intros [->|H]; [done|]. by apply H2.
Qed.
Lemma index_byte_None c data : index_byte c data = None <-> ~ c ∈ data.
Proof.
  induction data as [|x data IH]; cbn [index_byte]; [split; [intros _; apply not_elem_of_nil|done]|].
  destruct (Z.eqb_spec x c) as [->|Hne].
  - split; [done|]. intros []. left.
  - rewrite fmap_None, IH, elem_of_cons. naive_solver.
Qed.
Lemma index_byte_app c a b i : index_byte c a = Some i -> index_byte c (a ++ b) = Some i.
Proof.
  revert i. induction a as [|x a IH]; intros i; cbn [index_byte app]; [done|].
  destruct (x =? c); [done|]. destruct (index_byte c a); cbn; [|done]. intros [= <-].
  by rewrite (IH _ eq_refl).
Qed.

Lemma index_byte_cons_ne c x data : x <> c -> index_byte c (x :: data) = S <$> index_byte c data.
Proof. intros H. cbn [index_byte]. destruct (Z.eqb_spec x c); congruence. Qed.

Lemma raw_lines_next data :
  data <> [] -> raw_lines data = (next_line data).1 :: raw_lines (next_line data).2.
Proof.
  induction data as [|c data IH]; [done|]. intros _. cbn [raw_lines]. unfold next_line.
  destruct (Z.eqb_spec c chNL) as [->|Hne].
  - cbn [index_byte]. rewrite Z.eqb_refl. cbn. by rewrite drop_0.
  - rewrite index_byte_cons_ne by done.
    destruct data as [|c' data'].
    + done.
    + rewrite IH by done. unfold next_line. by destruct (index_byte chNL (c' :: data')).
Qed.

Lemma newlines_app (a b : list Z) : newlines (a ++ b) = (newlines a + newlines b)%nat.
Proof. unfold newlines. by rewrite stdpp.list.filter_app, app_length. Qed.
Lemma newlines_none (a : list Z) : ~ chNL ∈ a -> newlines a = 0%nat.
Proof.
  induction a as [|x a IH]; [done|]. rewrite not_elem_of_cons. intros [H1 H2].
  unfold newlines in *. rewrite filter_cons_False by congruence. by apply IH.
Qed.
Lemma newlines_next data i :
  index_byte chNL data = Some i -> newlines data = S (newlines (next_line data).2).
Proof.
  intros H. unfold next_line. rewrite H. cbn. destruct (index_byte_Some _ _ _ H) as (H1 & H2 & _).
  rewrite <- (take_drop_middle _ _ _ H1) at 1. rewrite newlines_app, (newlines_none _ H2).
  unfold newlines. by rewrite filter_cons_True.
Qed.

Lemma dropCR_spec raw : line_text raw (dropCR raw).
Proof.
  unfold dropCR, line_text. destruct (last raw) as [c|] eqn:E.
  - apply last_Some in E as [l ->]. destruct (Z.eqb_spec c chCR) as [->|Hne].
    + left. rewrite app_length. cbn. replace (length l + 1 - 1)%nat with (length l) by lia.
      by rewrite take_app.
    + right. split; [done|]. rewrite last_snoc. congruence.
  - right. split; [done|]. by rewrite E.
Qed.
Lemma line_text_det raw t : line_text raw t -> t = dropCR raw.
Proof.
  unfold dropCR. intros [->|[-> H]].
  - rewrite last_snoc, Z.eqb_refl, app_length. cbn.
    replace (length t + 1 - 1)%nat with (length t) by lia. by rewrite take_app.
  - destruct (last t) as [c|]; [|done]. destruct (Z.eqb_spec c chCR); congruence.
Qed.

(** * Well-formed scanners *)
Definition wf (s : BufScanner) : Prop :=
  match b_err s with
  | None => (b_start s + length (b_cont s) <= b_len s)%nat /\ (b_len s <= maxTokenSize)%nat
  | Some e => e = EOF -> rd_final (b_rd s) = EOF /\ rd_data (b_rd s) = []
  end.

Definition suffix_chunks (r r' : reader) : Prop := exists k, rd_chunks r' = drop k (rd_chunks r).

Lemma no_stall_drop k ks : no_stall ks -> no_stall (drop k ks).
Proof.
  intros H i. destruct (H (k + i)%nat) as (j & Hj & Hn). exists j. split; [done|].
  rewrite lookup_drop. by replace (k + (i + j))%nat with (k + i + j)%nat by lia.
Qed.

Definition err_ok (r : reader) (e : ioerr) : Prop :=
  e = rd_final r \/ e = ErrNoProgress /\ ~ no_stall (rd_chunks r).

Lemma read_loop_spec n s :
  b_err s = None -> (b_start s + length (b_cont s) < b_len s)%nat ->
  let s' := read_loop n s in
  (b_len s' = b_len s /\ b_start s' = b_start s /\ b_tok s' = b_tok s /\
   rest s' = rest s /\ rd_final (b_rd s') = rd_final (b_rd s) /\
   suffix_chunks (b_rd s) (b_rd s') /\
   (b_start s' + length (b_cont s') <= b_len s')%nat) /\
  match b_err s' with
  | None => (length (rd_data (b_rd s')) < length (rd_data (b_rd s)))%nat
  | Some e => (length (rd_data (b_rd s')) <= length (rd_data (b_rd s)))%nat /\
              ((e = rd_final (b_rd s) /\ rd_data (b_rd s') = []) \/
               (e = ErrNoProgress /\ forall j, (j <= n)%nat -> rd_chunks (b_rd s) !! j = Some O))
  end.
Proof.
  revert s. induction n as [|n IH]; intros s He Hroom; cbn zeta.
  - cbn [read_loop]. unfold rd_read.
    destruct (rd_chunks (b_rd s)) as [|[|k] ks] eqn:Ek.
    + case_decide as Hd.
      * cbn. rewrite He. cbn. split.
        -- repeat split; try done.
           ++ unfold rest. cbn. by rewrite <- app_assoc, take_drop.
           ++ exists 0%nat. cbn. by rewrite Ek.
           ++ rewrite app_length, take_length. lia.
        -- rewrite drop_length. split; [lia|]. left. split; [done|]. destruct Hd as [->|[_ H]]; [by destruct (b_len s - _)%nat|done].
      * set (cap := (b_len s - (b_start s + length (b_cont s)))%nat) in *.
        destruct (rd_data (b_rd s)) as [|x d] eqn:Ed; [naive_solver|].
        assert (Hcap : exists c', cap = S c') by (exists (cap - 1)%nat; lia). destruct Hcap as [c' Hc]. rewrite Hc in *.
        cbn [take drop]. cbn. rewrite He. split.
        -- repeat split; try done.
           ++ unfold rest. cbn. rewrite <- app_assoc. cbn. by rewrite take_drop, Ed.
           ++ exists 0%nat. cbn. by rewrite Ek.
           ++ rewrite app_length. cbn. rewrite take_length. lia.
        -- rewrite drop_length. lia.
    + cbn. rewrite He. cbn. split.
      * repeat split; try done.
        -- unfold rest. cbn. by rewrite app_nil_r.
        -- exists 1%nat. by rewrite Ek.
        -- rewrite app_nil_r. lia.
      * split; [lia|]. right. split; [done|]. intros j Hj. by replace j with 0%nat by lia.
    + case_decide as Hd.
      * cbn [b_rd b_tok b_len b_start b_cont b_err rd_data rd_chunks rd_final]. rewrite He. cbn [set_err]. split.
        -- repeat split; try done.
           ++ unfold rest. cbn [b_cont b_rd rd_data]. by rewrite <- app_assoc, take_drop.
           ++ exists 1%nat. by rewrite Ek.
           ++ rewrite app_length, take_length. lia.
        -- rewrite drop_length. split; [lia|]. left. split; [done|]. destruct Hd as [->|[_ H]]; [by apply drop_nil|done].
      * set (cap := (b_len s - (b_start s + length (b_cont s)))%nat) in *.
        destruct (rd_data (b_rd s)) as [|x d] eqn:Ed; [naive_solver|].
        assert (Hcap : exists c', Nat.min (S k) cap = S c' /\ (S c' <= cap)%nat) by (exists (Nat.min (S k) cap - 1)%nat; lia). destruct Hcap as (c' & Hc & Hle). rewrite Hc in *.
        cbn [take drop]. cbn. rewrite He. split.
        -- repeat split; try done.
           ++ unfold rest. cbn. rewrite <- app_assoc. cbn. by rewrite take_drop, Ed.
           ++ exists 1%nat. cbn. by rewrite Ek.
           ++ rewrite app_length. cbn. rewrite take_length. lia.
        -- rewrite drop_length. lia.
  - cbn [read_loop]. unfold rd_read.
    destruct (rd_chunks (b_rd s)) as [|[|k] ks] eqn:Ek.
    + case_decide as Hd.
      * cbn. rewrite He. cbn. split.
        -- repeat split; try done.
           ++ unfold rest. cbn. by rewrite <- app_assoc, take_drop.
           ++ exists 0%nat. cbn. by rewrite Ek.
           ++ rewrite app_length, take_length. lia.
        -- rewrite drop_length. split; [lia|]. left. split; [done|]. destruct Hd as [->|[_ H]]; [by destruct (b_len s - _)%nat|done].
      * set (cap := (b_len s - (b_start s + length (b_cont s)))%nat) in *.
        destruct (rd_data (b_rd s)) as [|x d] eqn:Ed; [naive_solver|].
        assert (Hcap : exists c', cap = S c') by (exists (cap - 1)%nat; lia). destruct Hcap as [c' Hc]. rewrite Hc in *.
        cbn [take drop]. cbn -[read_loop]. rewrite He. split.
        -- repeat split; try done.
           ++ unfold rest. cbn. rewrite <- app_assoc. cbn. by rewrite take_drop, Ed.
           ++ exists 0%nat. cbn. by rewrite Ek.
           ++ rewrite app_length. cbn. rewrite take_length. lia.
        -- rewrite drop_length. lia.
    + set (s1 := {| b_rd := _; b_cont := b_cont s ++ [] |}).
      specialize (IH s1). cbn zeta in IH.
      destruct IH as [(H1 & H2 & H3 & H4 & H5 & (k & H6) & H7) H8].
      { done. }
      { unfold s1. cbn. by rewrite app_nil_r. }
      cbn [b_len b_start b_tok b_rd rd_data rd_final rd_chunks s1] in *.
      split.
      * repeat split; try done.
        -- rewrite H4. unfold rest, s1. cbn. by rewrite app_nil_r.
        -- exists (S k). by rewrite Ek.
      * destruct (b_err (read_loop n s1)) as [e|]; [|done].
        destruct H8 as [H8 [H9|[H9 H10]]]; split; try done; [by left|]. right. split; [done|].
        intros [|j] Hj; [done|]. apply (H10 j). lia.
    + case_decide as Hd.
      * cbn [b_rd b_tok b_len b_start b_cont b_err rd_data rd_chunks rd_final]. rewrite He. cbn [set_err]. split.
        -- repeat split; try done.
           ++ unfold rest. cbn [b_cont b_rd rd_data]. by rewrite <- app_assoc, take_drop.
           ++ exists 1%nat. by rewrite Ek.
           ++ rewrite app_length, take_length. lia.
        -- rewrite drop_length. split; [lia|]. left. split; [done|]. destruct Hd as [->|[_ H]]; [by apply drop_nil|done].
      * set (cap := (b_len s - (b_start s + length (b_cont s)))%nat) in *.
        destruct (rd_data (b_rd s)) as [|x d] eqn:Ed; [naive_solver|].
        assert (Hcap : exists c', Nat.min (S k) cap = S c' /\ (S c' <= cap)%nat) by (exists (Nat.min (S k) cap - 1)%nat; lia). destruct Hcap as (c' & Hc & Hle). rewrite Hc in *.
        cbn [take drop]. cbn -[read_loop]. rewrite He. split.
        -- repeat split; try done.
           ++ unfold rest. cbn. rewrite <- app_assoc. cbn. by rewrite take_drop, Ed.
           ++ exists 1%nat. cbn. by rewrite Ek.
           ++ rewrite app_length. cbn. rewrite take_length. lia.
        -- rewrite drop_length. lia.
Qed.

(** What a call of Scan does, in terms of the unread bytes. *)
Definition scan_post (s : BufScanner) (ok : bool) (s' : BufScanner) : Prop :=
  wf s' /\ rd_final (b_rd s') = rd_final (b_rd s) /\ suffix_chunks (b_rd s) (b_rd s') /\
  match bufio_Err s' with
  | None =>
      if ok then rest s <> [] /\ b_tok s' = Some (dropCR (next_line (rest s)).1) /\
                 rest s' = (next_line (rest s)).2 /\
                 (rd_final (b_rd s) <> EOF -> exists i, index_byte chNL (rest s) = Some i)
      else rest s = [] /\ rest s' = [] /\ b_err s' = Some EOF /\ b_tok s' = None
  | Some e =>
      e = rd_final (b_rd s) \/ (e = ErrNoProgress /\ ~ no_stall (rd_chunks (b_rd s))) \/
      (e = ErrTooLong /\ ~ chNL ∈ take maxTokenSize (rest s) /\ (maxTokenSize <= length (rest s))%nat)
  end.

Lemma bscan_err fuel s e :
  wf s -> b_err s = Some e ->
  exists ok s', bscan (S fuel) s = Ok (ok, s') /\ b_err s' = Some e /\ b_rd s' = b_rd s /\
    (e = EOF -> scan_post s ok s').
Proof.
  intros Hwf He. cbn [bscan]. rewrite He, orb_true_r. unfold ScanLines.
  destruct (b_cont s) as [|c cont] eqn:Ec.
  - cbn. do 2 eexists. split; [done|]. cbn. split; [done|]. split; [done|]. intros Heq. split; [|split; [done|split; [by exists 0%nat|]]].
    + unfold wf in *. cbn. rewrite He in Hwf. done.
    + subst e. unfold bufio_Err. cbn. unfold wf in Hwf. rewrite He in Hwf.
      unfold rest. rewrite Ec. cbn. by destruct (Hwf eq_refl) as [_ ->].
  - cbn [andb]. destruct (index_byte chNL (c :: cont)) as [i|] eqn:Ei.
    + cbn [b_tok b_err b_rd b_len b_start b_cont]. do 2 eexists. split; [done|]. cbn [b_tok b_err b_rd b_len b_start b_cont].
      split; [done|]. split; [done|]. intros Heq. split; [|split; [done|split; [by exists 0%nat|]]].
      * unfold wf in *. cbn. rewrite He in Hwf. done.
      * subst e. unfold bufio_Err. cbn [b_err]. unfold wf in Hwf. rewrite He in Hwf.
        destruct (Hwf eq_refl) as [Hf Hd]. unfold rest. rewrite Ec. cbn [b_cont b_rd]. rewrite Hd, !app_nil_r.
        unfold next_line. rewrite Ei. repeat split; [done|]. intros; congruence.
    + cbn [b_tok b_err b_rd b_len b_start b_cont]. do 2 eexists. split; [done|]. cbn [b_tok b_err b_rd b_len b_start b_cont].
      split; [done|]. split; [done|]. intros Heq. split; [|split; [done|split; [by exists 0%nat|]]].
      * unfold wf in *. cbn. rewrite He in Hwf. done.
      * subst e. unfold bufio_Err. cbn [b_err]. unfold wf in Hwf. rewrite He in Hwf.
        destruct (Hwf eq_refl) as [Hf Hd]. unfold rest. rewrite Ec. cbn [b_cont b_rd]. rewrite Hd, !app_nil_r.
        unfold next_line. rewrite Ei. repeat split; [done| |by intros].
        cbn [snd]. by rewrite drop_all.
Qed.

Lemma suffix_chunks_trans a b c : suffix_chunks a b -> suffix_chunks b c -> suffix_chunks a c.
Proof. intros [k H] [k' H']. exists (k + k')%nat. by rewrite H', H, drop_drop. Qed.

Lemma bscan_spec fuel s :
  wf s -> b_err s = None -> (S (length (rd_data (b_rd s))) < fuel)%nat ->
  exists ok s', bscan fuel s = Ok (ok, s') /\ scan_post s ok s'.
Proof.
  revert s. induction fuel as [|fuel IH]; intros s Hwf He Hf; [lia|].
  pose proof Hwf as Hwf0. unfold wf in Hwf0. rewrite He in Hwf0. destruct Hwf0 as [Hroom Hmax].
  destruct (index_byte chNL (b_cont s)) as [i|] eqn:Ei.
  { (* a complete line is buffered *)
    cbn [bscan]. rewrite He. destruct (b_cont s) as [|c cont] eqn:Ec; [done|].
    cbn [orb]. unfold ScanLines. rewrite Ei. cbn [andb]. cbn [b_tok].
    do 2 eexists. split; [done|].
    destruct (index_byte_Some _ _ _ Ei) as (_ & _ & Hi).
    split; [|split; [done|split; [by exists 0%nat|]]].
    - unfold wf. cbn [b_err]. cbn [b_start b_cont b_len].
      rewrite drop_length. lia.
    - unfold bufio_Err. cbn [b_err]. unfold rest. cbn [b_cont b_rd b_tok].
      rewrite Ec. split; [done|]. unfold next_line.
      rewrite (index_byte_app _ _ _ _ Ei). cbn [fst snd].
      rewrite take_app_le by lia. rewrite drop_app_le by lia.
      split; [done|]. split; [done|]. intros _; eauto. }
  (* no line is buffered: read *)
  set (start := if Nat.ltb 0 (b_start s) && (Nat.eqb (b_start s + length (b_cont s)) (b_len s) || Nat.ltb (b_len s / 2) (b_start s))
                then O else b_start s).
  assert (Hstart : (start = 0%nat \/ start = b_start s)) by (unfold start; destruct (_ && _); auto).
  assert (Hfull : (start + length (b_cont s) = b_len s)%nat -> start = 0%nat).
  { unfold start. destruct (Nat.ltb_spec 0 (b_start s)) as [H0|H0]; cbn [andb]; [|lia].
    destruct (Nat.eqb_spec (b_start s + length (b_cont s)) (b_len s)) as [H1|H1]; cbn [orb]; [done|].
    destruct (Nat.ltb _ _); [done|]. lia. }
  assert (Hunf : bscan (S fuel) s =
    let s1 := {| b_rd := b_rd s; b_tok := None; b_len := b_len s; b_start := start;
                 b_cont := b_cont s; b_err := None |} in
    if Nat.eqb (start + length (b_cont s)) (b_len s) && Nat.leb maxTokenSize (b_len s)
    then Ok (false, {| b_rd := b_rd s; b_tok := None; b_len := b_len s; b_start := start;
                       b_cont := b_cont s; b_err := Some ErrTooLong |})
    else bscan fuel (read_loop 100
           (if Nat.eqb (start + length (b_cont s)) (b_len s)
            then {| b_rd := b_rd s; b_tok := None;
                    b_len := Nat.min maxTokenSize (if Nat.eqb (b_len s) 0 then startBufSize else b_len s * 2);
                    b_start := 0; b_cont := b_cont s; b_err := None |}
            else s1))).
  { cbn [bscan]. rewrite He. unfold start. rewrite orb_false_r.
    destruct (b_cont s) as [|c cont] eqn:Ec.
    - cbn [b_tok b_err b_len b_start b_cont b_rd]. done.
    - unfold ScanLines. rewrite Ei. cbn [andb b_tok b_err b_len b_start b_cont b_rd drop]. rewrite Nat.add_0_r. done. }
  rewrite Hunf. clear Hunf. cbn zeta.
  destruct (Nat.eqb_spec (start + length (b_cont s)) (b_len s)) as [Hfl|Hfl];
    destruct (Nat.leb_spec maxTokenSize (b_len s)) as [Hmx|Hmx]; cbn [andb].
  { (* token too long *)
    do 2 eexists. split; [done|]. split; [|split; [done|split; [by exists 0%nat|]]].
    - unfold wf. cbn. done.
    - unfold bufio_Err. cbn [b_err]. right. right. split; [done|].
      pose proof (Hfull Hfl). assert (length (b_cont s) = maxTokenSize) as Hl by lia.
      unfold rest. rewrite <- Hl. rewrite take_app. split; [by apply index_byte_None|]. rewrite app_length. lia. }
  all: match goal with |- context [read_loop 100 ?x] => set (s1 := x) end.
  all: assert (Hs1 : b_err s1 = None /\ (b_start s1 + length (b_cont s1) < b_len s1)%nat /\ (b_len s1 <= maxTokenSize)%nat /\
               b_cont s1 = b_cont s /\ b_rd s1 = b_rd s /\ b_tok s1 = None)
    by (unfold s1; cbn [b_err b_start b_cont b_len b_rd b_tok];
        unfold startBufSize, maxTokenSize in *; try destruct (Nat.eqb_spec (b_len s) 0);
        (split; [done|split; [lia|split; [lia|done]]])).
  all: destruct Hs1 as (He1 & Hr1 & Hm1 & Hc1 & Hrd1 & Ht1).
  all: pose proof (read_loop_spec 100 s1 He1 Hr1) as Hrl; cbn zeta in Hrl.
  all: set (s2 := read_loop 100 s1) in *.
  all: destruct Hrl as [(Hl2 & Hst2 & Htok2 & Hrest2 & Hfin2 & Hsuf2 & Hroom2) Herr2].
  all: rewrite Hrd1 in *.
  all: assert (Hrest : rest s2 = rest s) by (rewrite Hrest2; unfold rest; by rewrite Hc1, Hrd1).
  all: destruct (b_err s2) as [e|] eqn:He2.
  all: try (
    (* still reading *)
    destruct (IH s2) as (ok & s' & Hok & Hwf' & Hfin' & Hsuf' & Hpost); [unfold wf; rewrite He2; lia|done|lia|];
    exists ok, s'; split; [done|]; split; [done|]; split; [congruence|]; split; [by eapply suffix_chunks_trans|];
    rewrite Hrest, Hfin2 in Hpost;
    destruct (bufio_Err s') as [e|]; [|done];
    destruct Hpost as [Hp|[[Hp1 Hp2]|Hp]]; [by left| |by right; right];
    right; left; split; [done|]; intros Hns; apply Hp2; destruct Hsuf2 as [k ->]; by apply no_stall_drop).
  all: destruct fuel as [|fuel]; [lia|].
  all: destruct Herr2 as [Hlen2 Herr2].
  all: assert (Hwf2 : wf s2) by (unfold wf; rewrite He2; intros ->; destruct Herr2 as [[H1 H2]|[H1 _]]; [split; congruence|done]).
  all: destruct (bscan_err fuel s2 e Hwf2 He2) as (ok & s' & Hok & Herr' & Hrd' & Heof).
  all: exists ok, s'; split; [done|].
  all: destruct (decide (e = EOF)) as [->|Hne].
  1,3,5: (destruct (Heof eq_refl) as (Hwf' & Hfin' & Hsuf' & Hpost);
    split; [done|]; split; [congruence|]; split; [by eapply suffix_chunks_trans|];
    unfold bufio_Err in *; rewrite Herr' in *; rewrite Hrest, Hfin2 in Hpost; done).
  all: split; [unfold wf; rewrite Herr'; intros ->; done|].
  all: split; [congruence|]; split; [by rewrite Hrd'|].
  all: assert (Hbe : bufio_Err s' = Some e) by (unfold bufio_Err; rewrite Herr'; by destruct e).
  all: rewrite Hbe; destruct Herr2 as [[H1 _]|[H1 H2]]; [by left|].
  all: right; left; split; [done|]; intros Hns; destruct (Hns 0%nat) as (j & Hj & Hn); apply Hn; by apply H2.
Qed.

Lemma bufio_Scan_spec s :
  wf s -> bufio_Err s = None -> exists ok s', bufio_Scan s = Ok (ok, s') /\ scan_post s ok s'.
Proof.
  intros Hwf He. unfold bufio_Scan. destruct (b_err s) as [e|] eqn:Eb.
  - assert (e = EOF) as -> by (unfold bufio_Err in He; rewrite Eb in He; destruct e; done).
    replace (length (rd_data (b_rd s)) + 2)%nat with (S (length (rd_data (b_rd s)) + 1)) by lia.
    destruct (bscan_err (length (rd_data (b_rd s)) + 1) s EOF Hwf Eb) as (ok & s' & H1 & H2 & H3 & H4).
    exists ok, s'. auto.
  - apply bscan_spec; [done|done|lia].
Qed.

Lemma wf_new r : wf (bufio_NewScanner r).
Proof. unfold wf, bufio_NewScanner, maxTokenSize. cbn [b_err b_start b_cont b_len length]. lia. Qed.
Lemma bufio_Scan_eof s :
  wf s -> b_err s = Some EOF -> exists ok s', bufio_Scan s = Ok (ok, s') /\ scan_post s ok s' /\ b_err s' = Some EOF.
Proof.
  intros Hwf Eb. unfold bufio_Scan.
  replace (length (rd_data (b_rd s)) + 2)%nat with (S (length (rd_data (b_rd s)) + 1)) by lia.
  destruct (bscan_err (length (rd_data (b_rd s)) + 1) s EOF Hwf Eb) as (ok & s' & H1 & H2 & H3 & H4).
  exists ok, s'. auto.
Qed.
