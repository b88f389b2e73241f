(** Proofs for C74: what each member of a configuration file does to each setting. *)
From Verif.Model Require Import Load.
From Verif.Spec Require Import XcSpec ConfigSpec.
From Verif.Proofs Require Import XcProofs.
From Coq Require Import Lia ZifyBool.
Local Open Scope Z_scope.

(** * Keys *)
Lemma same_letter_lower a b : same_letter a b <-> lower a = lower b.
Proof.
  unfold same_letter, lower.
  destruct ((65 <=? a) && (a <=? 90)) eqn:Ea, ((65 <=? b) && (b <=? 90)) eqn:Eb; lia.
Qed.
Lemma names_lower key name : names key name <-> map lower key = map lower name.
Proof.
  unfold names. split.
  - induction 1 as [|a b l k Hab _ IH]; [done|]. cbn [map]. apply same_letter_lower in Hab. by rewrite Hab, IH.
  - revert name. induction key as [|a key IH]; intros [|b name]; try done; intros H.
    cbn [map] in H. inversion H as [[Hab Hr]]. constructor; [by apply same_letter_lower|by apply IH].
Qed.
Definition gv (name : bytes) (kvs : list (bytes * json)) : list json :=
  map snd (filter (fun kv => map lower kv.1 = map lower name) kvs).
Lemma given_gv name kvs js : given name kvs js <-> js = gv name kvs.
Proof.
  split.
  - induction 1 as [|key j kvs js Hn _ IH|key j kvs js Hn _ IH]; [done| |].
    + apply names_lower in Hn. unfold gv. rewrite filter_cons_True by done. cbn [map snd]. by rewrite IH.
    + rewrite names_lower in Hn. unfold gv. by rewrite filter_cons_False by done.
  - intros ->. induction kvs as [|[key j] kvs IH]; [constructor|].
    unfold gv. destruct (decide (map lower key = map lower name)) as [E|E].
    + rewrite filter_cons_True by done. constructor; [by apply names_lower|done].
    + rewrite filter_cons_False by done. constructor; [by rewrite names_lower|done].
Qed.

Lemma find_field_cases {A} (fs : list (bytes * A)) key :
  NoDup (map (fun f => map lower f.1) fs) ->
  (exists f, f ∈ fs /\ map lower f.1 = map lower key /\ find_field fs key = Some f.2) \/
  (find_field fs key = None /\ forall f, f ∈ fs -> map lower f.1 <> map lower key).
Proof.
  intros Hnd. unfold find_field.
  destruct (list_find _ fs) as [[i f]|] eqn:E1.
  { left. apply list_find_Some in E1 as (Hf & Hk & _). exists f. split; [by eapply elem_of_list_lookup_2|].
    cbn in Hk. split; [by f_equal|done]. }
  destruct (list_find (fun f => map lower f.1 = map lower key) fs) as [[i f]|] eqn:E2.
  { left. apply list_find_Some in E2 as (Hf & Hk & _). exists f. split; [by eapply elem_of_list_lookup_2|done]. }
  right. split; [done|]. apply list_find_None in E2. rewrite Forall_forall in E2. done.
Qed.
Lemma fields_distinct pf : NoDup (map (fun f => map lower f.1) (struct_fields pf)).
Proof.
  apply (bool_decide_unpack _). unfold struct_fields. cbn [map fst].
  match goal with |- context[NoDup ?l] => let l' := eval vm_compute in l in change l with l' end.
  vm_compute. done.
Qed.
Lemma null_dec (j : json) : {j = JNull} + {j <> JNull}.
Proof. destruct j; (by left) || by right. Qed.
(** * The kinds *)
Record kind_ok {A} (store : A -> json -> option A) (means : json -> A -> Prop) : Prop := mkKind {
  k_null : forall old, store old JNull = Some old;
  k_means : forall old j x, j <> JNull -> store old j = Some x <-> means j x;
  k_nonnull : forall x, ~ means JNull x }.
Lemma int_kind : kind_ok store_int int_means.
Proof.
  constructor; [done| |].
  - intros old j x Hj. unfold int_means. destruct j; try done; cbn; try (split; [done|by intros (t & ? & _)]).
    rewrite atoi_spec. split; [eauto|]. intros (t & E & H). by inversion E; subst.
  - by intros x (t & ? & _).
Qed.
Lemma float_kind pf : kind_ok (store_float pf) (float_means pf).
Proof.
  constructor; [done| |].
  - intros old j x Hj. unfold float_means. destruct j; try done; cbn; try (split; [done|by intros (t & ? & _)]).
    split; [eauto|]. intros (t & E & H). by inversion E; subst.
  - by intros x (t & ? & _).
Qed.
Lemma text_kind : kind_ok store_string text_means.
Proof.
  constructor; [done| |done].
  intros old j x Hj. unfold text_means. destruct j; try done; cbn; split; intros E; inversion E; by subst.
Qed.
Lemma bool_kind : kind_ok store_bool bool_means.
Proof.
  constructor; [done| |done].
  intros old j x Hj. unfold bool_means. destruct j; try done; cbn; split; intros E; inversion E; by subst.
Qed.
Lemma numbered_kind {A} (members : list A) other (of_int : Z -> A) :
  (forall z, (1 <= z <= Z.of_nat (length members) /\ members !! Z.to_nat (z - 1) = Some (of_int z)) \/
             (~ 1 <= z <= Z.of_nat (length members) /\ of_int z = other)) ->
  kind_ok (fun old j => from_option of_int old <$> store_int8 j) (numbered members other).
Proof.
  intros Hof. constructor; [done| |].
  - intros old j x Hj. unfold numbered, int_means.
    destruct j; try done; cbn; try (split; [done|by intros (z & (t & ? & _) & _)]).
    split.
    + intros E. destruct (atoi lit) as [z|] eqn:Ez; [|done]. cbn in E.
      destruct ((-128 <=? z) && (z <=? 127)) eqn:Er; [|done]. cbn in E. inversion E; subst x.
      exists z. split; [exists lit; split; [done|by apply atoi_spec]|]. split; [lia|].
      destruct (Hof z) as [[? ?]|[? ?]]; [by left|by right].
    + intros (z & (t & E & Ht) & Hr & Hx). inversion E; subst t. apply atoi_spec in Ht. rewrite Ht. cbn.
      replace ((-128 <=? z) && (z <=? 127)) with true by lia. cbn. f_equal.
      destruct (Hof z) as [[? Hl]|[? Hl]], Hx as [[? Hx]|[? Hx]]; try lia; congruence.
  - by intros x (z & (t & ? & _) & _).
Qed.
Ltac enum_cases := intros z; cbn [length];
  destruct (Z.eqb_spec z 1); [subst; left; split; [lia|reflexivity]|];
  destruct (Z.eqb_spec z 2); [subst; left; split; [lia|reflexivity]|];
  destruct (Z.eqb_spec z 3); [subst; left; split; [lia|reflexivity]|];
  destruct (Z.eqb_spec z 4); [subst; left; split; [lia|reflexivity]|];
  right; split; [lia|reflexivity].
Lemma hash_kind : kind_ok store_hash hash_means.
Proof. apply numbered_kind. unfold hash_of_int. enum_cases. Qed.
Lemma mode_kind : kind_ok store_mode mode_means.
Proof. apply numbered_kind. unfold mode_of_int. enum_cases. Qed.

(** Lists: decoded over an empty old list they mean what they should; whether they can be decoded does not depend
    on the old list. *)
Lemma elems_means {A} (store : A -> json -> option A) means zero l xs : kind_ok store means ->
  store_elems store zero [] l = Some xs <-> Forall2 (fun e x => means e x \/ (e = JNull /\ x = zero)) l xs.
Proof.
  intros K. revert xs. induction l as [|j l IH]; intros xs.
  - cbn. split; [intros E; inversion E; constructor|by inversion 1].
  - cbn [store_elems head tail default]. split.
    + intros E. destruct (store zero j) as [x|] eqn:Ex; [|done]. cbn in E.
      destruct (store_elems store zero [] l) as [ys|] eqn:Ey; [|done]. cbn in E. inversion E; subst xs.
      constructor; [|by apply IH]. destruct (null_dec j) as [->|Hj].
      * right. rewrite (k_null _ _ K) in Ex. by inversion Ex.
      * left. by apply (k_means _ _ K) in Ex.
    + inversion 1 as [|? x ? ys Hx Hy]; subst. apply IH in Hy.
      assert (store zero j = Some x) as ->.
      { destruct Hx as [Hx|[-> ->]]; [|apply (k_null _ _ K)]. apply (k_means _ _ K); [|done].
        intros ->. by apply (k_nonnull _ _ K) in Hx. }
      cbn. change (fun x => ?f x) with f. by rewrite Hy.
Qed.
Lemma store_any {A} (store : A -> json -> option A) means old old' j x : kind_ok store means ->
  store old j = Some x -> exists y, store old' j = Some y.
Proof.
  intros K H. destruct (null_dec j) as [->|Hj]; [exists old'; apply (k_null _ _ K)|].
  exists x. apply (k_means _ _ K); [done|]. by apply (k_means _ _ K) in H.
Qed.
Lemma elems_any {A} (store : A -> json -> option A) means zero l : kind_ok store means -> forall old old' xs,
  store_elems store zero old l = Some xs -> exists ys, store_elems store zero old' l = Some ys.
Proof.
  intros K. induction l as [|j l IH]; intros old old' xs H; [by eexists|]. cbn [store_elems] in *.
  destruct (store _ j) as [x|] eqn:Ex; [|done]. cbn in H.
  destruct (store_elems store zero (tail old) l) as [zs|] eqn:Ez; [|done].
  destruct (store_any _ _ _ (default zero (head old')) _ _ K Ex) as [y ->].
  destruct (IH _ (tail old') _ Ez) as [ys Hys]. cbn. change (fun x => ?f x) with f. rewrite Hys. by eexists.
Qed.
(** Whether a value can be stored. *)
Lemma simple_ok {A} (store : A -> json -> option A) means old j : kind_ok store means ->
  (exists x, store old j = Some x) <-> (j = JNull \/ exists x, means j x).
Proof.
  intros K. destruct (null_dec j) as [->|Hj].
  - split; [by left|]. intros _. exists old. apply (k_null _ _ K).
  - split; [intros [x Hx]; right; exists x; by apply (k_means _ _ K) in Hx|].
    intros [?|[x Hx]]; [done|]. exists x. by apply (k_means _ _ K).
Qed.
Lemma list_ok {A} (store : A -> json -> option A) means zero old j : kind_ok store means ->
  (exists x, store_slice store zero old j = Some x) <-> (j = JNull \/ exists x, list_means means zero j x).
Proof.
  intros K. unfold list_means. destruct j as [|b|t|t|l|o]; cbn [store_slice].
  - split; [by left|]. intros _. by eexists.
  - split; [by intros [? ?]|]. by intros [?|(x & l & ? & _)].
  - split; [by intros [? ?]|]. by intros [?|(x & l & ? & _)].
  - split; [by intros [? ?]|]. by intros [?|(x & l & ? & _)].
  - split.
    + intros [xs Hx]. right. destruct (elems_any _ _ _ _ K _ [] _ Hx) as [ys Hy].
      exists ys, l. split; [done|]. by apply (elems_means _ _ _ _ _ K).
    + intros [?|(xs & l' & E & HF)]; [done|]. inversion E; subst l'. apply (elems_means _ _ _ _ _ K) in HF.
      exact (elems_any _ _ _ _ K _ old _ HF).
  - split; [by intros [? ?]|]. by intros [?|(x & l & ? & _)].
Qed.

(** * One member *)
Definition acts {A} (pf : bytes -> option float64) (store : A -> json -> option A) (s : bytes * A * (FileConfig -> A)) : Prop :=
  forall c kv c', store_member pf c kv = Some c' ->
  if decide (map lower kv.1 = map lower s.1.1) then store (s.2 c) kv.2 = Some (s.2 c') else s.2 c' = s.2 c.
Lemma member_inv pf c key j c' : store_member pf c (key, j) = Some c' ->
  (exists f, f ∈ struct_fields pf /\ map lower f.1 = map lower key /\ f.2 c j = Some c') \/
  (c' = c /\ forall f, f ∈ struct_fields pf -> map lower f.1 <> map lower key).
Proof.
  unfold store_member. cbn [fst snd]. intros H.
  destruct (find_field_cases (struct_fields pf) key (fields_distinct pf)) as [(f & Hin & Hk & Hf)|[Hf Hno]];
    rewrite Hf in H; [by left; exists f|]. right. by inversion H.
Qed.
Ltac field_tac Hk H E c :=
  cbn [fst snd] in Hk, H; rewrite <- Hk; clear Hk;
  destruct (decide _) as [E|E];
  [ first [ (vm_compute in E; discriminate E) | clear E ] | first [ (exfalso; apply E; reflexivity) | clear E ] ];
  destruct c as [[] ? ? ? ? ?]; unfold upd, set_cfg in H;
  cbn -[store_int store_slice store_float store_string store_bool store_hash store_mode] in H |- *;
  match type of H with match ?o with _ => _ end = _ => destruct o eqn:?; [|discriminate H] | mbind _ ?o = _ => destruct o eqn:?; [|discriminate H] end;
  cbn in H; inversion H; subst; reflexivity.
Ltac acts_tac :=
  let c := fresh "c" in let key := fresh "key" in let j := fresh "j" in let c' := fresh "c'" in let H := fresh "H" in
  let f := fresh "f" in let Hin := fresh "Hin" in let Hk := fresh "Hk" in let Hno := fresh "Hno" in let E := fresh "E" in let Hf := fresh "Hf" in let Hc := fresh "Hc" in
  intros c [key j] c' H; cbn [fst snd];
  destruct (member_inv _ _ _ _ _ H) as [(f & Hin & Hk & Hf)|[Hc Hno]]; clear H;
  [ unfold struct_fields in Hin;
    repeat (apply elem_of_cons in Hin as [->|Hin]; [field_tac Hk Hf E c|]);
    by apply elem_of_nil in Hin
  | subst c'; destruct (decide _) as [E|E]; [|reflexivity];
    exfalso; symmetry in E; revert E;
    match goal with |- map lower ?n = _ -> _ => eapply (Hno (n, _)) end;
    apply elem_of_list_In; repeat (first [left; reflexivity | right]) ].
Ltac acts_all := repeat (apply Forall_cons; split; [acts_tac|]); apply Forall_nil; done.
Lemma acts_int pf : Forall (acts pf store_int) int_settings.
Proof. unfold int_settings. acts_all. Qed.
Lemma acts_float pf : Forall (acts pf (store_float pf)) float_settings.
Proof. unfold float_settings. acts_all. Qed.
Lemma acts_text pf : Forall (acts pf store_string) text_settings.
Proof. unfold text_settings. acts_all. Qed.
Lemma acts_bool pf : Forall (acts pf store_bool) bool_settings.
Proof. unfold bool_settings. acts_all. Qed.
Lemma acts_hash pf : Forall (acts pf store_hash) hash_settings.
Proof. unfold hash_settings. acts_all. Qed.
Lemma acts_mode pf : Forall (acts pf store_mode) mode_settings.
Proof. unfold mode_settings. acts_all. Qed.
Lemma acts_ints pf : Forall (acts pf (store_slice store_int 0)) ints_settings.
Proof. unfold ints_settings. acts_all. Qed.
Lemma acts_floats pf : Forall (acts pf (store_slice (store_float pf) fzero)) floats_settings.
Proof. unfold floats_settings. acts_all. Qed.

