(** Proofs for C74: configuration files. *)
From Verif.Model Require Import Load.
From Verif.Spec Require Import XcSpec ConfigSpec.
From Verif.Proofs Require Import XcProofs ConfigFields.
From Coq Require Import Lia ZifyBool.
Local Open Scope Z_scope.

(** A member can be stored exactly when its value suits the setting it names. *)
Definition mok {A} (means : json -> A -> Prop) (key : bytes) (j : json) (s : bytes * A * (FileConfig -> A)) : Prop :=
  map lower key = map lower s.1.1 -> j = JNull \/ exists x, means j x.
Definition mtyped (pf : bytes -> option float64) (kv : bytes * json) : Prop :=
  Forall (mok int_means kv.1 kv.2) int_settings /\ Forall (mok (float_means pf) kv.1 kv.2) float_settings /\
  Forall (mok text_means kv.1 kv.2) text_settings /\ Forall (mok bool_means kv.1 kv.2) bool_settings /\
  Forall (mok hash_means kv.1 kv.2) hash_settings /\ Forall (mok mode_means kv.1 kv.2) mode_settings /\
  Forall (mok (list_means int_means 0) kv.1 kv.2) ints_settings /\
  Forall (mok (list_means (float_means pf) fzero) kv.1 kv.2) floats_settings.
Lemma acts_mok {A} pf (store : A -> json -> option A) means c kv c' ss :
  (forall old j, (exists x, store old j = Some x) <-> (j = JNull \/ exists x, means j x)) ->
  Forall (acts pf store) ss -> store_member pf c kv = Some c' -> Forall (mok means kv.1 kv.2) ss.
Proof.
  intros K Ha H. eapply Forall_impl; [exact Ha|]. intros s Hs E. specialize (Hs _ _ _ H).
  rewrite decide_True in Hs by done. apply (K (s.2 c)). by eexists.
Qed.
Lemma simple_store {A} (store : A -> json -> option A) means j : kind_ok store means ->
  (j = JNull \/ exists x, means j x) -> forall old, exists x, store old j = Some x.
Proof. intros K H old. by apply (simple_ok store means old j K). Qed.
Lemma list_store {A} (store : A -> json -> option A) means zero j : kind_ok store means ->
  (j = JNull \/ exists x, list_means means zero j x) -> forall old, exists x, store_slice store zero old j = Some x.
Proof. intros K H old. by apply (list_ok store means zero old j K). Qed.
Ltac mok_tac key Hk j :=
  match goal with
  | T : map lower key = map lower ?n -> _ |- _ =>
      match type of Hk with map lower n = _ =>
      let X := fresh "X" in let Y := fresh "Y" in pose proof (T (eq_sym Hk)) as X;
      let x := fresh "x" in let Hx := fresh "Hx" in
      unfold upd; cbn [fc_cfg];
      first [ pose proof (simple_store _ _ _ int_kind X) as Y | pose proof (simple_store _ _ _ (float_kind _) X) as Y
            | pose proof (simple_store _ _ _ text_kind X) as Y | pose proof (simple_store _ _ _ bool_kind X) as Y
            | pose proof (simple_store _ _ _ hash_kind X) as Y | pose proof (simple_store _ _ _ mode_kind X) as Y
            | pose proof (list_store _ _ _ _ int_kind X) as Y | pose proof (list_store _ _ _ _ (float_kind _) X) as Y ];
      match goal with
      | |- context[store_slice _ _ ?old j] => destruct (Y old) as [x Hx] | |- context[store_int ?old j] => destruct (Y old) as [x Hx]
      | |- context[store_float _ ?old j] => destruct (Y old) as [x Hx] | |- context[store_string ?old j] => destruct (Y old) as [x Hx]
      | |- context[store_bool ?old j] => destruct (Y old) as [x Hx] | |- context[store_hash ?old j] => destruct (Y old) as [x Hx]
      | |- context[store_mode ?old j] => destruct (Y old) as [x Hx]
      end; rewrite Hx; by eexists
      end
  end.
Lemma member_ok pf c kv : (exists c', store_member pf c kv = Some c') <-> mtyped pf kv.
Proof.
  split.
  - intros [c' H]. unfold mtyped.
    repeat split.
    + eapply acts_mok; [|apply acts_int|exact H]. intros. apply simple_ok, int_kind.
    + eapply acts_mok; [|apply acts_float|exact H]. intros. apply simple_ok, float_kind.
    + eapply acts_mok; [|apply acts_text|exact H]. intros. apply simple_ok, text_kind.
    + eapply acts_mok; [|apply acts_bool|exact H]. intros. apply simple_ok, bool_kind.
    + eapply acts_mok; [|apply acts_hash|exact H]. intros. apply simple_ok, hash_kind.
    + eapply acts_mok; [|apply acts_mode|exact H]. intros. apply simple_ok, mode_kind.
    + eapply acts_mok; [|apply acts_ints|exact H]. intros. apply list_ok, int_kind.
    + eapply acts_mok; [|apply acts_floats|exact H]. intros. apply list_ok, float_kind.
  - destruct kv as [key j]. unfold mtyped. cbn [fst snd].
    unfold int_settings, float_settings, text_settings, bool_settings, hash_settings, mode_settings, ints_settings, floats_settings.
    rewrite ?Forall_cons. unfold mok. cbn [fst snd].
    intros T. destruct_and! T.
    unfold store_member. cbn [fst snd].
    destruct (find_field_cases (struct_fields pf) key (fields_distinct pf)) as [(f & Hin & Hk & Hf)|[Hf Hno]]; rewrite Hf; [|by eexists].
    clear Hf. destruct c as [cf x1 x2 x3 x4 x5]. unfold struct_fields in Hin.
    do 26 (apply elem_of_cons in Hin as [->|Hin]; [cbn [fst snd] in Hk |- *; mok_tac key Hk j|]).
    by apply elem_of_nil in Hin.
Qed.

Lemma members_ok pf kvs : forall c, (exists c', store_members pf c kvs = Some c') <-> Forall (mtyped pf) kvs.
Proof.
  induction kvs as [|kv kvs IH]; intros c; cbn [store_members].
  - split; [constructor|by eexists].
  - rewrite Forall_cons. split.
    + intros [c' H]. destruct (store_member pf c kv) as [c1|] eqn:E; [|done]. cbn in H.
      split; [apply (member_ok pf c); by eexists|apply (IH c1); by eexists].
    + intros [H1 H2]. apply (member_ok pf c) in H1 as [c1 H1]. rewrite H1. cbn. by apply IH.
Qed.
Lemma Forall_filter_iff {A} (P Q : A -> Prop) `{forall x, Decision (P x)} l :
  Forall Q (filter P l) <-> Forall (fun x => P x -> Q x) l.
Proof. rewrite !Forall_forall. setoid_rewrite elem_of_list_filter. naive_solver. Qed.
Lemma typed_gv {A} (means : json -> A -> Prop) kvs (s : bytes * A * (FileConfig -> A)) :
  typed means kvs s.1.1 <-> Forall (fun kv => mok means kv.1 kv.2 s) kvs.
Proof.
  unfold typed, mok. split.
  - intros H. specialize (H _ (proj2 (given_gv _ _ _) eq_refl)). unfold gv in H.
    rewrite Forall_map, Forall_filter_iff in H. exact H.
  - intros H js Hg. apply given_gv in Hg as ->. unfold gv. rewrite Forall_map, Forall_filter_iff. exact H.
Qed.
Lemma Forall_Forall {A B} (P : A -> B -> Prop) (l : list A) (k : list B) :
  Forall (fun a => Forall (fun b => P a b) k) l <-> Forall (fun b => Forall (fun a => P a b) l) k.
Proof. rewrite !Forall_forall. setoid_rewrite Forall_forall. naive_solver. Qed.
Lemma well_typed_members pf kvs : well_typed pf kvs <-> Forall (mtyped pf) kvs.
Proof.
  unfold well_typed, mtyped.
  rewrite !Forall_and. setoid_rewrite typed_gv. rewrite !(Forall_Forall _ _ kvs). done.
Qed.

(** * All members *)
Fixpoint foldO {A} (store : A -> json -> option A) (a : A) (js : list json) : option A :=
  match js with [] => Some a | j :: js' => a' ← store a j; foldO store a' js' end.
Lemma members_fold {A} pf (store : A -> json -> option A) s kvs : acts pf store s -> forall c c',
  store_members pf c kvs = Some c' -> foldO store (s.2 c) (gv s.1.1 kvs) = Some (s.2 c').
Proof.
  intros Ha. induction kvs as [|kv kvs IH]; intros c c' H; cbn [store_members] in H; [by inversion H|].
  destruct (store_member pf c kv) as [c1|] eqn:E; [|done]. cbn in H. specialize (Ha _ _ _ E).
  unfold gv in *. rewrite filter_cons. destruct (decide _) as [Ek|Ek].
  - cbn [map foldO]. rewrite Ha. cbn. by apply IH.
  - rewrite <- Ha. by apply IH.
Qed.
Lemma foldO_nulls {A} (store : A -> json -> option A) means a js : kind_ok store means ->
  Forall (eq JNull) js -> foldO store a js = Some a.
Proof.
  intros K. induction 1 as [|j js <- _ IH]; [done|]. cbn [foldO]. rewrite (k_null _ _ K). cbn. done.
Qed.
Lemma foldO_app {A} (store : A -> json -> option A) a js1 js2 :
  foldO store a (js1 ++ js2) = a' ← foldO store a js1; foldO store a' js2.
Proof. revert a. induction js1 as [|j js1 IH]; intros a; [done|]. cbn. destruct (store a j); [apply IH|done]. Qed.
Lemma foldO_last {A} (store : A -> json -> option A) means a js r : kind_ok store means ->
  foldO store a js = Some r ->
  (Forall (eq JNull) js /\ r = a) \/
  exists js1 j js2, js = js1 ++ j :: js2 /\ means j r /\ Forall (eq JNull) js2.
Proof.
  intros K. induction js as [|j js IH] using rev_ind; intros H.
  - left. cbn in H. inversion H. by split; [constructor|].
  - rewrite foldO_app in H. destruct (foldO store a js) as [b|] eqn:Eb; [|done]. cbn in H.
    destruct (store b j) as [x|] eqn:Ex; [|done]. cbn in H. inversion H; subst x. destruct (null_dec j) as [->|Hj].
    + rewrite (k_null _ _ K) in Ex. inversion Ex; subst b.
      destruct (IH eq_refl) as [[HF ->]|(js1 & j & js2 & -> & Hm & HF)].
      * left. split; [|done]. apply Forall_app. split; [done|]. by constructor.
      * right. exists js1, j, (js2 ++ [JNull]). rewrite <- app_assoc. split; [done|]. split; [done|].
        apply Forall_app. split; [done|]. by constructor.
    + right. exists js, j, []. split; [done|]. split; [by apply (k_means _ _ K) in Ex|constructor].
Qed.
Lemma foldO_of_last {A} (store : A -> json -> option A) means a js r r0 : kind_ok store means ->
  (Forall (eq JNull) js /\ r = a) \/
  (exists js1 j js2, js = js1 ++ j :: js2 /\ means j r /\ Forall (eq JNull) js2) ->
  foldO store a js = Some r0 -> r = r0.
Proof.
  intros K [[HF ->]|(js1 & j & js2 & -> & Hm & HF)] H.
  - rewrite (foldO_nulls _ _ _ _ K HF) in H. by inversion H.
  - rewrite foldO_app in H. destruct (foldO store a js1) as [b|]; [|done]. cbn in H.
    assert (j <> JNull) as Hj by (intros ->; by apply (k_nonnull _ _ K) in Hm).
    apply (k_means _ _ K b) in Hm; [|done]. rewrite Hm in H. cbn in H.
    rewrite (foldO_nulls _ _ _ _ K HF) in H. by inversion H.
Qed.

Lemma simple_all {A} pf (store : A -> json -> option A) means (ss : list (bytes * A * (FileConfig -> A))) kvs c :
  kind_ok store means -> Forall (acts pf store) ss -> Forall (fun s => s.2 fc_Default = s.1.2) ss ->
  store_members pf fc_Default kvs = Some c -> Forall (simple_setting means kvs c) ss.
Proof.
  intros K Ha Hd H. eapply Forall_impl; [exact (proj2 (Forall_and _ _) (conj Ha Hd))|]. intros [[name d] get] [Hs Hdd].
  cbn [fst snd] in Hdd. exists (gv name kvs). split; [by apply given_gv|].
  pose proof (members_fold _ _ _ kvs Hs _ _ H) as HF. cbn [fst snd] in HF. rewrite Hdd in HF.
  by apply (foldO_last _ _ _ _ _ K).
Qed.

Lemma simple_unique {A} pf (store : A -> json -> option A) means (ss : list (bytes * A * (FileConfig -> A))) kvs c c0 :
  kind_ok store means -> Forall (acts pf store) ss -> Forall (fun s => s.2 fc_Default = s.1.2) ss ->
  store_members pf fc_Default kvs = Some c0 -> Forall (simple_setting means kvs c) ss -> Forall (fun s => s.2 c = s.2 c0) ss.
Proof.
  intros K Ha Hd H Hc. rewrite Forall_forall in *. intros [[name d] get] Hin.
  specialize (Ha _ Hin). specialize (Hd _ Hin). destruct (Hc _ Hin) as (js & Hg & Hr). cbn [fst snd] in *.
  apply given_gv in Hg as ->. pose proof (members_fold _ _ _ kvs Ha _ _ H) as HF. cbn [fst snd] in HF. rewrite Hd in HF.
  exact (foldO_of_last _ _ _ _ _ _ K Hr HF).
Qed.
Lemma lists_all {A} pf (store : A -> json -> option A) means zero (ss : list (bytes * list A * (FileConfig -> list A))) kvs c :
  kind_ok store means -> Forall (acts pf (store_slice store zero)) ss ->
  Forall (fun s => s.2 fc_Default = s.1.2 /\ s.1.2 = []) ss -> Forall (fun s => (length (gv s.1.1 kvs) <= 1)%nat) ss ->
  store_members pf fc_Default kvs = Some c -> Forall (list_setting means zero kvs c) ss.
Proof.
  intros K Ha Hd Hl H. rewrite Forall_forall in *. intros [[name d] get] Hin.
  specialize (Ha _ Hin). destruct (Hd _ Hin) as [Hd1 Hd0]. cbn [fst snd] in Hd1, Hd0. rewrite Hd0 in Hd1. clear Hd. rename Hd1 into Hd. specialize (Hl _ Hin).
  pose proof (members_fold _ _ _ kvs Ha _ _ H) as HF. cbn [fst snd] in *. rewrite Hd in HF. unfold list_setting.
  setoid_rewrite given_gv.
  destruct (gv name kvs) as [|j [|]]; cbn in Hl; [| |lia].
  - left. split; [done|]. cbn in HF. by inversion HF.
  - right. cbn [foldO] in HF. destruct (store_slice store zero [] j) as [xs|] eqn:E; [|done]. cbn in HF.
    inversion HF as [Hx]. rewrite <- Hx. destruct j; try done.
    + left. split; [done|]. cbn in E. by inversion E.
    + right. eexists. split; [done|]. eexists. split; [done|]. by apply (elems_means _ _ _ _ _ K).
Qed.
Lemma lists_unique {A} pf (store : A -> json -> option A) means zero (ss : list (bytes * list A * (FileConfig -> list A))) kvs c c0 :
  kind_ok store means -> Forall (acts pf (store_slice store zero)) ss ->
  Forall (fun s => s.2 fc_Default = s.1.2 /\ s.1.2 = []) ss ->
  store_members pf fc_Default kvs = Some c0 -> Forall (list_setting means zero kvs c) ss -> Forall (fun s => s.2 c = s.2 c0) ss.
Proof.
  intros K Ha Hd H Hc. rewrite Forall_forall in *. intros [[name d] get] Hin.
  specialize (Ha _ Hin). destruct (Hd _ Hin) as [Hd1 Hd0]. cbn [fst snd] in Hd1, Hd0. rewrite Hd0 in Hd1. clear Hd. rename Hd1 into Hd. specialize (Hc _ Hin).
  pose proof (members_fold _ _ _ kvs Ha _ _ H) as HF. cbn [fst snd] in *. rewrite Hd in HF.
  destruct Hc as [[Hg ->]|[[Hg ->]|(j & Hg & l & -> & Hm)]]; apply given_gv in Hg; rewrite <- Hg in HF; cbn in HF.
  - by inversion HF.
  - by inversion HF.
  - apply (elems_means _ _ _ _ _ K) in Hm. rewrite Hm in HF. cbn in HF. by inversion HF.
Qed.
Lemma defaults_simple :
  Forall (fun s => s.2 fc_Default = s.1.2) int_settings /\ Forall (fun s => s.2 fc_Default = s.1.2) float_settings /\
  Forall (fun s => s.2 fc_Default = s.1.2) text_settings /\ Forall (fun s => s.2 fc_Default = s.1.2) bool_settings /\
  Forall (fun s => s.2 fc_Default = s.1.2) hash_settings /\ Forall (fun s => s.2 fc_Default = s.1.2) mode_settings.
Proof. repeat split; repeat (apply Forall_cons; split; [vm_compute; reflexivity|]); by apply Forall_nil. Qed.
Lemma defaults_lists :
  Forall (fun s => s.2 fc_Default = s.1.2 /\ s.1.2 = []) ints_settings /\
  Forall (fun s => s.2 fc_Default = s.1.2 /\ s.1.2 = []) floats_settings.
Proof. split; repeat (apply Forall_cons; split; [by split|]); by apply Forall_nil. Qed.
Lemma once_gv kvs : lists_once kvs ->
  Forall (fun s => (length (gv s.1.1 kvs) <= 1)%nat) ints_settings /\ Forall (fun s => (length (gv s.1.1 kvs) <= 1)%nat) floats_settings.
Proof.
  intros H. unfold lists_once in H. split; apply Forall_forall; intros s Hs; (eapply H; [|by apply given_gv]).
  - apply elem_of_app. left. apply elem_of_list_fmap. by exists s.
  - apply elem_of_app. right. apply elem_of_list_fmap. by exists s.
Qed.
Lemma config_ext c c0 :
  Forall (fun s => s.2 c = s.2 c0) int_settings -> Forall (fun s => s.2 c = s.2 c0) float_settings ->
  Forall (fun s => s.2 c = s.2 c0) text_settings -> Forall (fun s => s.2 c = s.2 c0) bool_settings ->
  Forall (fun s => s.2 c = s.2 c0) hash_settings -> Forall (fun s => s.2 c = s.2 c0) mode_settings ->
  Forall (fun s => s.2 c = s.2 c0) ints_settings -> Forall (fun s => s.2 c = s.2 c0) floats_settings -> c = c0.
Proof.
  destruct c as [[a1 a2 a3 a4 a5 a6 a7 a8 a9 a10 a11 a12 a13 a14 a15 a16 a17 a18 a19 a20 a21] a22 a23 a24 a25 a26],
    c0 as [[b1 b2 b3 b4 b5 b6 b7 b8 b9 b10 b11 b12 b13 b14 b15 b16 b17 b18 b19 b20 b21] b22 b23 b24 b25 b26].
  unfold int_settings, float_settings, text_settings, bool_settings, hash_settings, mode_settings, ints_settings, floats_settings.
  rewrite !Forall_cons. cbn [snd c_RangePow c_K c_L c_Sparsity c_BatchSize c_Rehash c_Rebuild c_InputDim c_TotRecords c_TotRecordsTest
    c_LearningRate c_Epoch c_Stepsize c_SizesOfLayers c_NumLayer c_TrainData c_TestData c_UseAdam c_HashFunction c_LoadWeight c_LayerMode
    fc_cfg fc_Weights fc_SavedWeights fc_LogFile fc_CpuProfile fc_MemProfile].
  intros H1 H2 H3 H4 H5 H6 H7 H8. destruct_and!. by subst.
Qed.

Theorem unmarshal_object pf kvs c : lists_once kvs ->
  unmarshal pf (JObject kvs) = Some c <-> well_typed pf kvs /\ config_of pf kvs c.
Proof.
  intros Hl. apply once_gv in Hl as [Hl1 Hl2]. cbn [unmarshal].
  destruct defaults_simple as (D1 & D2 & D3 & D4 & D5 & D6), defaults_lists as [D7 D8].
  split.
  - intros H. split; [apply well_typed_members, (members_ok pf kvs fc_Default); by eexists|]. unfold config_of.
    split; [exact (simple_all _ _ _ _ _ _ int_kind (acts_int pf) D1 H)|].
    split; [exact (simple_all _ _ _ _ _ _ (float_kind pf) (acts_float pf) D2 H)|].
    split; [exact (simple_all _ _ _ _ _ _ text_kind (acts_text pf) D3 H)|].
    split; [exact (simple_all _ _ _ _ _ _ bool_kind (acts_bool pf) D4 H)|].
    split; [exact (simple_all _ _ _ _ _ _ hash_kind (acts_hash pf) D5 H)|].
    split; [exact (simple_all _ _ _ _ _ _ mode_kind (acts_mode pf) D6 H)|].
    split; [exact (lists_all _ _ _ _ _ _ _ int_kind (acts_ints pf) D7 Hl1 H)|].
    exact (lists_all _ _ _ _ _ _ _ (float_kind pf) (acts_floats pf) D8 Hl2 H).
  - intros [Ht (C1 & C2 & C3 & C4 & C5 & C6 & C7 & C8)].
    apply well_typed_members, (members_ok pf kvs fc_Default) in Ht as [c0 H]. rewrite H. f_equal. symmetry. apply config_ext.
    + exact (simple_unique _ _ _ _ _ _ _ int_kind (acts_int pf) D1 H C1).
    + exact (simple_unique _ _ _ _ _ _ _ (float_kind pf) (acts_float pf) D2 H C2).
    + exact (simple_unique _ _ _ _ _ _ _ text_kind (acts_text pf) D3 H C3).
    + exact (simple_unique _ _ _ _ _ _ _ bool_kind (acts_bool pf) D4 H C4).
    + exact (simple_unique _ _ _ _ _ _ _ hash_kind (acts_hash pf) D5 H C5).
    + exact (simple_unique _ _ _ _ _ _ _ mode_kind (acts_mode pf) D6 H C6).
    + exact (lists_unique _ _ _ _ _ _ _ _ int_kind (acts_ints pf) D7 H C7).
    + exact (lists_unique _ _ _ _ _ _ _ _ (float_kind pf) (acts_floats pf) D8 H C8).
Qed.
Theorem unmarshal_total pf kvs : (exists c, unmarshal pf (JObject kvs) = Some c) <-> well_typed pf kvs.
Proof. rewrite well_typed_members. apply members_ok. Qed.

(** * The file and the program *)
Lemma once_nil : lists_once [].
Proof. intros name _ js H. inversion H. cbn. lia. Qed.
Lemma defaults_of_nothing pf : config_of pf [] fc_Default.
Proof. apply (unmarshal_object pf [] fc_Default once_nil). done. Qed.
Lemma well_typed_nil pf : well_typed pf [].
Proof. apply (unmarshal_object pf [] fc_Default once_nil). done. Qed.
Lemma file_total ld pf name : (exists c, FromJsonFile ld pf name = Some c) <-> proper_file ld pf name.
Proof.
  unfold FromJsonFile, proper_file. split.
  - intros [c H]. destruct (ld_read ld name) as [text|] eqn:E1; [|done]. cbn in H.
    destruct (ld_parse ld text) as [j|] eqn:E2; [|done]. cbn in H. exists text, j. split; [done|]. split; [done|].
    destruct j as [| | | | |kvs]; try done; [by left|]. right. exists kvs. split; [done|].
    apply unmarshal_total. by exists c.
  - intros (text & j & -> & Hj & H). cbn. rewrite Hj. cbn. destruct H as [->|(kvs & -> & H)]; [by eexists|].
    by apply unmarshal_total.
Qed.
Lemma file_means ld pf name c :
  (forall text kvs, ld_read ld name = Some text -> ld_parse ld text = Some (JObject kvs) -> lists_once kvs) ->
  FromJsonFile ld pf name = Some c <-> proper_file ld pf name /\ file_says ld pf name c.
Proof.
  intros Ho. split.
  - intros H. split; [apply file_total; by eexists|]. unfold FromJsonFile in H.
    destruct (ld_read ld name) as [text|] eqn:E1; [|done]. cbn in H.
    destruct (ld_parse ld text) as [j|] eqn:E2; [|done]. cbn in H. exists text, j. split; [done|]. split; [done|].
    destruct j as [| | | | |kvs]; try done.
    + left. split; [done|]. cbn in H. inversion H; subst. apply defaults_of_nothing.
    + right. exists kvs. split; [done|]. by apply (unmarshal_object pf kvs c (Ho _ _ eq_refl E2)).
  - intros [(text & j & E1 & E2 & Hp) (text' & j' & E1' & E2' & Hs)]. rewrite E1 in E1'. inversion E1'; subst text'.
    rewrite E2 in E2'. inversion E2'; subst j'. unfold FromJsonFile. rewrite E1. cbn. rewrite E2. cbn.
    destruct Hs as [[-> Hs]|(kvs & -> & Hs)].
    + apply (unmarshal_object pf [] c once_nil). split; [apply well_typed_nil|done].
    + destruct Hp as [?|(kvs' & E & Hw)]; [done|]. inversion E; subst kvs'.
      by apply (unmarshal_object pf kvs c (Ho _ _ E1 E2)).
Qed.

Lemma goslide_args ld w args m : length args <> 2%nat -> goslide ld w args m = Panic (PMsg 22).
Proof. intros H. destruct args as [|a [|b [|]]]; done. Qed.
Lemma goslide_bad ld w prog name m : ~ proper_file ld (w_parseFloat w) name -> goslide ld w [prog; name] m = Panic (PMsg 23).
Proof.
  intros H. unfold goslide. destruct (FromJsonFile ld (w_parseFloat w) name) as [c|] eqn:E; [|done].
  exfalso. apply H. apply file_total. by exists c.
Qed.
Lemma goslide_good ld w prog name c m :
  (forall text kvs, ld_read ld name = Some text -> ld_parse ld text = Some (JObject kvs) -> lists_once kvs) ->
  proper_file ld (w_parseFloat w) name -> file_says ld (w_parseFloat w) name c ->
  goslide ld w [prog; name] m = main w (fc_cfg c) m.
Proof.
  intros Ho Hp Hs. unfold goslide. by rewrite (proj2 (file_means ld (w_parseFloat w) name c Ho) (conj Hp Hs)).
Qed.

(** * Writing a configuration and reading it back *)
Lemma write_int_means z : in_int64 z -> int_means (write_int z) z.
Proof.
  intros Hz. unfold in_int64 in Hz. unfold write_int, int_means. eexists. split; [done|].
  destruct (Z.ltb_spec z 0) as [Hlt|Hge]; [|apply write_nat_spec; unfold maxInt64 in *; lia].
  destruct (digits_of_spec 20 (- z)) as (H1 & H2 & H3); [|lia|].
  { change (10 ^ Z.of_nat 20) with 100000000000000000000. unfold minInt64 in Hz. lia. }
  exists (write_nat (- z)). split; [done|]. split; [done|]. split; [done|]. right. right. split; [done|].
  unfold write_nat. lia.
Qed.
Lemma write_small z : -128 <= z <= 127 -> int_means (write_int z) z.
Proof. intros H. apply write_int_means. unfold in_int64, minInt64, maxInt64. lia. Qed.
Lemma write_hash_means h : hash_means (write_hash h) h.
Proof.
  unfold hash_means, numbered, write_hash.
  eexists. split; [apply write_small; destruct h; lia|]. split; [destruct h; lia|].
  cbn [length]. destruct h; [left|left|left|left|right]; split; (lia || reflexivity).
Qed.
Lemma write_mode_means h : mode_means (write_mode h) h.
Proof.
  unfold mode_means, numbered, write_mode.
  eexists. split; [apply write_small; destruct h; lia|]. split; [destruct h; lia|].
  cbn [length]. destruct h; [left|left|left|left|right]; split; (lia || reflexivity).
Qed.
Lemma gv_perm name kvs kvs' : kvs ≡ₚ kvs' -> gv name kvs ≡ₚ gv name kvs'.
Proof. intros H. unfold gv. by rewrite H. Qed.
Lemma gv_none name kvs : Forall (fun kv => ~ names kv.1 name) kvs -> gv name kvs = [].
Proof.
  intros H. unfold gv. induction H as [|kv kvs Hk _ IH]; [done|]. rewrite names_lower in Hk. by rewrite filter_cons_False.
Qed.
Lemma gv_app name k1 k2 : gv name (k1 ++ k2) = gv name k1 ++ gv name k2.
Proof. unfold gv. by rewrite filter_app, map_app. Qed.
Lemma gv_cons name j k : gv name ((name, j) :: k) = j :: gv name k.
Proof. unfold gv. by rewrite filter_cons_True. Qed.
Lemma gv_one name j kvs : NoDup (map (fun kv : bytes * json => map lower kv.1) kvs) -> (name, j) ∈ kvs -> gv name kvs = [j].
Proof.
  intros Hn Hin. apply elem_of_list_split in Hin as (k1 & k2 & ->). rewrite gv_app, gv_cons.
  rewrite map_app in Hn. cbn [map fst] in Hn. apply NoDup_app in Hn as (_ & H1 & H2). apply NoDup_cons in H2 as [H2 _].
  assert (forall k, map lower name ∉ map (fun kv : bytes * json => map lower kv.1) k ->
    gv name k = []) as Hnone.
  { intros k Hk. apply (gv_none name). apply Forall_forall. intros kv Hkv Hc. apply Hk. apply names_lower in Hc.
    rewrite <- Hc. apply elem_of_list_fmap. by exists kv. }
  rewrite (Hnone k2 H2), (Hnone k1); [done|]. intros Hc. apply (H1 _ Hc). by left.
Qed.
Lemma written_names fmt c : map fst (write_config fmt c) = setting_names.
Proof. reflexivity. Qed.
Lemma settings_distinct : NoDup (map (map lower) setting_names).
Proof. apply (bool_decide_unpack _). vm_compute. done. Qed.
Lemma written_gv fmt c extra kvs name j : kvs ≡ₚ write_config fmt c ++ extra ->
  Forall (fun kv => Forall (fun n => ~ names kv.1 n) setting_names) extra ->
  (name, j) ∈ write_config fmt c -> gv name kvs = [j].
Proof.
  intros Hp He Hin. apply Permutation_singleton_r. rewrite (gv_perm _ _ _ Hp). rewrite gv_app.
  rewrite (gv_one name j), (gv_none name extra); [done| | |done].
  - eapply Forall_impl; [exact He|]. intros kv Hkv. rewrite Forall_forall in Hkv. apply Hkv.
    rewrite <- (written_names fmt c). apply elem_of_list_fmap. by exists (name, j).
  - rewrite <- (map_map fst (map lower)), written_names. apply settings_distinct.
Qed.
Lemma written_read pf fmt c extra kvs : writable_config pf fmt c -> kvs ≡ₚ write_config fmt c ++ extra ->
  Forall (fun kv => Forall (fun n => ~ names kv.1 n) setting_names) extra ->
  unmarshal pf (JObject kvs) = Some c.
Proof.
  intros (W1 & W2 & W3 & W4) Hp He.
  pose proof (fun name j => written_gv fmt c extra kvs name j Hp He) as G.
  assert (forall (name : bytes) j, gv name kvs = [j] -> forall js, given name kvs js -> js = [j]) as U.
  { intros name j E js Hg. apply given_gv in Hg. congruence. }
  assert (forall {A} (means : json -> A -> Prop) (ss : list (bytes * A * (FileConfig -> A))) (wr : A -> json),
    Forall (fun s => gv s.1.1 kvs = [wr (s.2 c)] /\ means (wr (s.2 c)) (s.2 c)) ss ->
    Forall (simple_setting means kvs c) ss /\ Forall (fun s => typed means kvs s.1.1) ss) as S.
  { intros A means ss wr HF. split; eapply Forall_impl; try exact HF; intros [[name d] get] [HG Hm]; cbn [fst snd] in *.
    - exists [wr (get c)]. split; [by apply given_gv|]. right. exists [], (wr (get c)), []. by split; [|split].
    - intros js Hg. rewrite (U _ _ HG _ Hg). constructor; [by right; eexists|constructor]. }
  assert (forall {A} (means : json -> A -> Prop) zero (ss : list (bytes * list A * (FileConfig -> list A))) (wr : A -> json),
    Forall (fun s => gv s.1.1 kvs = [JArray (map wr (s.2 c))] /\ Forall (fun x => means (wr x) x) (s.2 c)) ss ->
    Forall (list_setting means zero kvs c) ss /\ Forall (fun s => typed (list_means means zero) kvs s.1.1) ss) as L.
  { intros A means zero ss wr HF. split; eapply Forall_impl; try exact HF; intros [[name d] get] [HG Hm]; cbn [fst snd] in *.
    - right. right. eexists. split; [by apply given_gv|]. eexists. split; [done|].
      apply Forall2_fmap_l, Forall_Forall2_diag. eapply Forall_impl; [exact Hm|]. intros x Hx. by left.
    - intros js Hg. rewrite (U _ _ HG _ Hg). constructor; [|constructor]. right. exists (get c). eexists. split; [done|].
      apply Forall2_fmap_l, Forall_Forall2_diag. eapply Forall_impl; [exact Hm|]. intros x Hx. by left. }
  assert (Forall (simple_setting int_means kvs c) int_settings /\ Forall (fun s => typed int_means kvs s.1.1) int_settings) as [A1 B1].
  { apply (S _ _ _ write_int). apply Forall_forall. intros s Hs. split.
    - apply G. unfold write_config. rewrite !elem_of_app. left. apply elem_of_list_fmap. exists s. by destruct s as [[? ?] ?].
    - rewrite Forall_forall in W1. specialize (W1 _ Hs). destruct s as [[? ?] ?]. by apply write_int_means. }
  assert (Forall (simple_setting (float_means pf) kvs c) float_settings /\ Forall (fun s => typed (float_means pf) kvs s.1.1) float_settings) as [A2 B2].
  { apply (S _ _ _ (fun x => JNumber (fmt x))). apply Forall_forall. intros s Hs. split.
    - apply G. unfold write_config. rewrite !elem_of_app. right; left. apply elem_of_list_fmap. exists s. by destruct s as [[? ?] ?].
    - rewrite Forall_forall in W3. specialize (W3 _ Hs). destruct s as [[? ?] ?]. eexists. by split. }
  assert (Forall (simple_setting text_means kvs c) text_settings /\ Forall (fun s => typed text_means kvs s.1.1) text_settings) as [A3 B3].
  { apply (S _ _ _ JString). apply Forall_forall. intros s Hs. split; [|done].
    apply G. unfold write_config. rewrite !elem_of_app. do 2 right; left. apply elem_of_list_fmap. exists s. by destruct s as [[? ?] ?]. }
  assert (Forall (simple_setting bool_means kvs c) bool_settings /\ Forall (fun s => typed bool_means kvs s.1.1) bool_settings) as [A4 B4].
  { apply (S _ _ _ JBool). apply Forall_forall. intros s Hs. split; [|done].
    apply G. unfold write_config. rewrite !elem_of_app. do 3 right; left. apply elem_of_list_fmap. exists s. by destruct s as [[? ?] ?]. }
  assert (Forall (simple_setting hash_means kvs c) hash_settings /\ Forall (fun s => typed hash_means kvs s.1.1) hash_settings) as [A5 B5].
  { apply (S _ _ _ write_hash). apply Forall_forall. intros s Hs. split; [|apply write_hash_means].
    apply G. unfold write_config. rewrite !elem_of_app. do 4 right; left. apply elem_of_list_fmap. exists s. by destruct s as [[? ?] ?]. }
  assert (Forall (simple_setting mode_means kvs c) mode_settings /\ Forall (fun s => typed mode_means kvs s.1.1) mode_settings) as [A6 B6].
  { apply (S _ _ _ write_mode). apply Forall_forall. intros s Hs. split; [|apply write_mode_means].
    apply G. unfold write_config. rewrite !elem_of_app. do 5 right; left. apply elem_of_list_fmap. exists s. by destruct s as [[? ?] ?]. }
  assert (Forall (fun s => gv s.1.1 kvs = [JArray (map write_int (s.2 c))] /\ Forall (fun x => int_means (write_int x) x) (s.2 c)) ints_settings) as P7.
  { apply Forall_forall. intros s Hs. split.
    - apply G. unfold write_config. rewrite !elem_of_app. do 6 right; left. apply elem_of_list_fmap. exists s. by destruct s as [[? ?] ?].
    - rewrite Forall_forall in W2. specialize (W2 _ Hs). destruct s as [[? ?] ?]. eapply Forall_impl; [exact W2|]. apply write_int_means. }
  assert (Forall (fun s => gv s.1.1 kvs = [JArray (map (fun x => JNumber (fmt x)) (s.2 c))] /\
    Forall (fun x => float_means pf (JNumber (fmt x)) x) (s.2 c)) floats_settings) as P8.
  { apply Forall_forall. intros s Hs. split.
    - apply G. unfold write_config. rewrite !elem_of_app. do 7 right. apply elem_of_list_fmap. exists s. by destruct s as [[? ?] ?].
    - rewrite Forall_forall in W4. specialize (W4 _ Hs). destruct s as [[? ?] ?]. eapply Forall_impl; [exact W4|].
      intros x Hx. eexists. by split. }
  destruct (L _ _ 0 _ _ P7) as [A7 B7]. destruct (L _ _ fzero _ _ P8) as [A8 B8].
  apply unmarshal_object; [|done].
  intros name Hn js Hg. apply given_gv in Hg as ->. apply elem_of_app in Hn as [Hn|Hn]; apply elem_of_list_fmap in Hn as (s & -> & Hs).
  - rewrite Forall_forall in P7. destruct (P7 _ Hs) as [E _]. rewrite E. done.
  - rewrite Forall_forall in P8. destruct (P8 _ Hs) as [E _]. rewrite E. done.
Qed.
