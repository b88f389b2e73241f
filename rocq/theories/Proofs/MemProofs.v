(** Reads, writes and framing on the memory. *)
From Verif.Spec Require Export NodeSpec.
From Verif.Proofs Require Export BaseProofs.
From Coq Require Import Lia ZifyBool ZifyNat.

Section Monad.
  Context {A B : Type}.
  Lemma bindM_Ok (c : M A) (f : A -> M B) m a m1 : c m = Ok (a, m1) -> (c ≫= f) m = f a m1.
  Proof. unfold mbind, M_bind. by intros ->. Qed.
  Lemma bindM_Panic (c : M A) (f : A -> M B) m p : c m = Panic p -> (c ≫= f) m = Panic p.
  Proof. unfold mbind, M_bind. by intros ->. Qed.
  Lemma bindM_inv (c : M A) (f : A -> M B) m r m2 : (c ≫= f) m = Ok (r, m2) ->
    exists a m1, c m = Ok (a, m1) /\ f a m1 = Ok (r, m2).
  Proof. unfold mbind, M_bind. destruct (c m) as [[a m1]|p]; [|done]. eauto. Qed.
  Lemma bindM_lift (r : res A) (f : A -> M B) m :
    (lift r ≫= f) m = match r with Ok a => f a m | Panic p => Panic p end.
  Proof. unfold mbind, M_bind, lift. by destruct r. Qed.
  Lemma load_Ok (region : mem -> list A) l m a : region m !! l = Some a -> load region l m = Ok (a, m).
  Proof. unfold load. by intros ->. Qed.
  Lemma store_Ok (region : mem -> list A) upd l v m a : region m !! l = Some a ->
    store region upd l v m = Ok (tt, upd (fun r => <[l := v]> r) m).
  Proof. unfold store. by intros ->. Qed.
  Lemma load_inv (region : mem -> list A) l m a m' : load region l m = Ok (a, m') -> region m !! l = Some a /\ m' = m.
  Proof. unfold load. destruct (region m !! l); naive_solver. Qed.
End Monad.

Lemma mfold_app {S A} (f : S -> A -> M S) s xs ys m :
  mfold f s (xs ++ ys) m = (s' ← mfold f s xs; mfold f s' ys) m.
Proof.
  revert s m; induction xs as [|x xs IH]; intros s m; cbn [mfold app]; [done|].
  unfold mbind, M_bind. destruct (f s x m) as [[s1 m1]|p]; [|done].
  rewrite IH. done.
Qed.

(** * Framing: everything but the listed train records, base records and slices is unchanged. *)
Record touched (T B : list nat) (S : list fslice) (m m' : mem) : Prop := mkTouched {
  tc_tr : forall l, l ∉ T -> m_tr m' !! l = m_tr m !! l;
  tc_base : forall l, l ∉ B -> m_base m' !! l = m_base m !! l;
  tc_f : forall s, (forall s', s' ∈ S -> sdisj s s') -> felems m' s = felems m s;
  tc_ta : m_ta m' = m_ta m; tc_node : m_node m' = m_node m; tc_na : m_na m' = m_na m;
  tc_ia : m_ia m' = m_ia m; tc_lsh : m_lsh m' = m_lsh m; tc_layer : m_layer m' = m_layer m;
  tc_la : m_la m' = m_la m; tc_rng : m_rng m' = m_rng m;
  tc_norm : m_norm m' = m_norm m; tc_npos : m_npos m' = m_npos m; tc_seeds : m_seeds m' = m_seeds m;
  tc_shape : map length (m_f m') = map length (m_f m);
  tc_ntr : length (m_tr m') = length (m_tr m); tc_nbase : length (m_base m') = length (m_base m)
}.

Lemma touched_refl T B S m : touched T B S m m.
Proof. by constructor. Qed.

Lemma touched_trans T B S m1 m2 m3 : touched T B S m1 m2 -> touched T B S m2 m3 -> touched T B S m1 m3.
Proof.
  intros [] []. constructor; [| | | congruence..].
  - intros l Hl. rewrite tc_tr1, tc_tr0; done.
  - intros l Hl. rewrite tc_base1, tc_base0; done.
  - intros s Hs. rewrite tc_f1, tc_f0; done.
Qed.

Lemma touched_weaken T B S T' B' S' m m' :
  T ⊆ T' -> B ⊆ B' -> S ⊆ S' -> touched T B S m m' -> touched T' B' S' m m'.
Proof.
  intros HT HB HS []. constructor; [| | | done..].
  - intros l Hl. apply tc_tr0. set_solver.
  - intros l Hl. apply tc_base0. set_solver.
  - intros s Hs. apply tc_f0. set_solver.
Qed.

Lemma telems_touched T B S m m' s : touched T B S m m' -> telems m' s = telems m s.
Proof. intros []. unfold telems. by rewrite tc_ta0. Qed.

Lemma sdisj_sym a b : sdisj a b -> sdisj b a.
Proof. unfold sdisj. intuition congruence. Qed.

(** * Slices *)
Lemma felems_length m s xs : felems m s = Some xs -> Z.of_nat (length xs) = Z.max 0 (fs_len s).
Proof.
  unfold felems. destruct (Z.leb_spec (fs_len s) 0); [intros [= <-]; cbn; lia|].
  destruct (m_f m !! fs_loc s) as [a|]; cbn; [|done].
  destruct (_ && _) eqn:E; [|done]. intros [= <-]. unfold fslice_read.
  rewrite take_length, drop_length. lia.
Qed.

Lemma felems_lookup m s xs : felems m s = Some xs -> 0 < fs_len s ->
  exists a, m_f m !! fs_loc s = Some a /\ xs = fslice_read a s /\ 0 <= fs_off s /\
    fs_off s + fs_len s <= Z.of_nat (length a).
Proof.
  unfold felems. destruct (Z.leb_spec (fs_len s) 0); [lia|].
  destruct (m_f m !! fs_loc s) as [a|]; cbn; [|done].
  destruct (_ && _) eqn:E; [|done]. intros [= <-] _. exists a. split; [done|]. split; [done|]. lia.
Qed.

Lemma fget_felems m s xs i : felems m s = Some xs ->
  fget s i m = match sget xs i with Ok x => Ok (x, m) | Panic p => Panic p end.
Proof.
  intros H. pose proof (felems_length _ _ _ H) as HL. unfold fget, sget.
  destruct (Z.ltb_spec i 0); cbn [orb]; [done|].
  destruct (Z.leb_spec (fs_len s) i).
  - rewrite lookup_ge_None_2 by lia. done.
  - destruct (felems_lookup _ _ _ H) as (a & Ha & -> & ? & ?); [lia|].
    erewrite bindM_Ok by (apply load_Ok, Ha). unfold lift, sget.
    destruct (Z.ltb_spec (fs_off s + i) 0); [lia|].
    unfold fslice_read. rewrite lookup_take by lia. rewrite lookup_drop.
    replace (Z.to_nat (fs_off s) + Z.to_nat i)%nat with (Z.to_nat (fs_off s + i)) by lia.
    by destruct (a !! _).
Qed.

Definition put_f (s : fslice) (i : Z) (v : float64) (m : mem) : mem :=
  upd_f (fun r => match r !! fs_loc s with
                  | Some a => <[fs_loc s := <[Z.to_nat (fs_off s + i) := v]> a]> r
                  | None => r end) m.

Lemma fset_felems m s xs i v : felems m s = Some xs ->
  match sset xs i v with
  | Ok xs' => exists m', fset s i v m = Ok (tt, m') /\ felems m' s = Some xs' /\ touched [] [] [s] m m'
  | Panic p => fset s i v m = Panic p
  end.
Proof.
  intros H. pose proof (felems_length _ _ _ H) as HL. unfold fset, sset.
  destruct (Z.ltb_spec i 0); cbn [orb]; [done|].
  destruct (Z.leb_spec (fs_len s) i).
  - rewrite decide_False by lia. done.
  - rewrite decide_True by lia.
    destruct (felems_lookup _ _ _ H) as (a & Ha & Hxs & Ho & Hb); [lia|].
    pose proof (lookup_lt_Some _ _ _ Ha) as Hlt.
    eexists. split.
    { erewrite bindM_Ok by (apply load_Ok, Ha). rewrite bindM_lift. unfold sset.
      destruct (Z.ltb_spec (fs_off s + i) 0); [lia|]. rewrite decide_True by lia.
      apply (store_Ok m_f upd_f _ _ _ a Ha). }
    split.
    + unfold felems. destruct (Z.leb_spec (fs_len s) 0); [lia|].
      cbn [upd_f m_f]. rewrite list_lookup_insert by done. cbn [mbind option_bind].
      rewrite insert_length. destruct (_ && _) eqn:E; [|lia]. f_equal. subst xs. unfold fslice_read.
      rewrite drop_insert_le by lia. rewrite take_insert_lt by lia. f_equal. lia.
    + constructor; try done.
      * intros s' Hs'. specialize (Hs' s ltac:(left)). unfold felems. cbn [upd_f m_f].
        destruct (Z.leb_spec (fs_len s') 0); [done|].
        destruct (decide (fs_loc s' = fs_loc s)) as [Heq|Hne].
        -- rewrite Heq, list_lookup_insert, Ha by done. cbn [mbind option_bind].
           rewrite insert_length. destruct (_ && _) eqn:E; [|done]. f_equal. unfold fslice_read.
           destruct Hs' as [?|[?|[?|[?|?]]]]; [lia|lia|done| |].
           ++ rewrite drop_insert_le by lia. rewrite take_insert by lia. done.
           ++ rewrite drop_insert_gt by lia. done.
        -- by rewrite list_lookup_insert_ne by done.
      * cbn [upd_f m_f]. apply list_eq. intros k. rewrite !list_lookup_fmap.
        destruct (decide (k = fs_loc s)) as [->|].
        -- rewrite list_lookup_insert, Ha by done. cbn. by rewrite insert_length.
        -- by rewrite list_lookup_insert_ne.
Qed.

Lemma fread_felems m s xs : felems m s = Some xs -> fread s m = Ok (xs, m).
Proof.
  unfold felems, fread. destruct (Z.leb_spec (fs_len s) 0); [intros [= <-]; done|].
  destruct (m_f m !! fs_loc s) as [a|] eqn:Ha; cbn [mbind option_bind]; [|done].
  destruct (_ && _); [|done]. intros [= <-]. by erewrite bindM_Ok by (apply load_Ok, Ha).
Qed.

Lemma fadd_slot_felems m s xs i d : felems m s = Some xs ->
  match add_at xs i d with
  | Ok xs' => exists m', fadd_slot s i d m = Ok (tt, m') /\ felems m' s = Some xs' /\ touched [] [] [s] m m'
  | Panic p => fadd_slot s i d m = Panic p
  end.
Proof.
  intros H. unfold add_at, fadd_slot.
  pose proof (fget_felems _ _ _ i H) as Hg.
  destruct (sget xs i) as [x|p]; cbn [mbind res_bind].
  - pose proof (fset_felems m s xs i (fadd x d) H) as Hs.
    destruct (sset xs i (fadd x d)) as [xs'|p].
    + destruct Hs as (m' & Hs & ?). exists m'. by erewrite bindM_Ok by exact Hg.
    + by erewrite bindM_Ok by exact Hg.
  - by erewrite bindM_Panic by exact Hg.
Qed.

(** copying a slice onto itself *)
Lemma fcopy_self m s xs : felems m s = Some xs -> exists m', fcopy s s m = Ok (tt, m') /\ m' = m.
Proof.
  intros H. unfold fcopy. destruct (Z.leb_spec (fs_len s) 0); cbn [orb]; [eauto|].
  destruct (felems_lookup _ _ _ H) as (a & Ha & -> & Ho & Hb); [lia|].
  eexists. split.
  { erewrite bindM_Ok by (apply fread_felems, H).
    erewrite bindM_Ok by (apply load_Ok, Ha). rewrite bindM_lift. unfold copy_range.
    destruct (_ && _) eqn:E; [|lia]. apply (store_Ok m_f upd_f _ _ _ a Ha). }
  assert (Heq : take (Z.to_nat (fs_off s)) a ++
      go_copy (take (Z.to_nat (fs_off s + fs_len s - fs_off s)) (drop (Z.to_nat (fs_off s)) a)) (fslice_read a s) ++
      drop (Z.to_nat (fs_off s + fs_len s)) a = a).
  { unfold fslice_read, go_copy. replace (fs_off s + fs_len s - fs_off s) with (fs_len s) by lia.
    rewrite take_length, drop_length.
    rewrite (take_ge (take _ _)) by (rewrite take_length, drop_length; lia).
    rewrite (drop_ge (take _ _)) by (rewrite take_length, drop_length; lia).
    rewrite app_nil_r. replace (Z.to_nat (fs_off s + fs_len s)) with (Z.to_nat (fs_off s) + Z.to_nat (fs_len s))%nat by lia.
    rewrite <- drop_drop, take_drop, take_drop. done. }
  rewrite Heq. destruct m; unfold upd_f; cbn in *. by rewrite list_insert_id.
Qed.

(** * Train records *)
Lemma telems_length m s xs : telems m s = Some xs -> Z.of_nat (length xs) = Z.max 0 (ts_len s).
Proof.
  unfold telems. destruct (Z.leb_spec (ts_len s) 0); [intros [= <-]; cbn; lia|].
  destruct (m_ta m !! ts_loc s) as [a|]; cbn; [|done].
  destruct (_ && _) eqn:E; [|done]. intros [= <-].
  rewrite take_length, drop_length. lia.
Qed.

Lemma tget_telems m s xs i : telems m s = Some xs ->
  tget s i m = match sget xs i with Ok x => Ok (x, m) | Panic p => Panic p end.
Proof.
  intros H. pose proof (telems_length _ _ _ H) as HL. unfold tget, sget.
  destruct (Z.ltb_spec i 0); cbn [orb]; [done|].
  destruct (Z.leb_spec (ts_len s) i).
  - rewrite lookup_ge_None_2 by lia. done.
  - unfold telems in H. destruct (Z.leb_spec (ts_len s) 0); [lia|].
    destruct (m_ta m !! ts_loc s) as [a|] eqn:Ha; cbn in H; [|done].
    destruct (_ && _) eqn:E in H; [|done]. injection H as <-.
    erewrite bindM_Ok by (apply load_Ok, Ha). unfold lift, sget.
    destruct (Z.ltb_spec (ts_off s + i) 0); [lia|].
    rewrite lookup_take by lia. rewrite lookup_drop.
    replace (Z.to_nat (ts_off s) + Z.to_nat i)%nat with (Z.to_nat (ts_off s + i)) by lia.
    by destruct (a !! _).
Qed.

(** writing back the pointer that is there *)
Lemma tset_same m s xs i p : telems m s = Some xs -> sget xs i = Ok p -> tset s i p m = Ok (tt, m).
Proof.
  intros H Hp. pose proof (telems_length _ _ _ H) as HL. apply sget_Ok in Hp as [Hi Hp].
  pose proof (lookup_lt_Some _ _ _ Hp) as Hlt.
  unfold tset. destruct (Z.ltb_spec i 0); cbn [orb]; [lia|].
  destruct (Z.leb_spec (ts_len s) i); [lia|].
  unfold telems in H. destruct (Z.leb_spec (ts_len s) 0); [lia|].
  destruct (m_ta m !! ts_loc s) as [a|] eqn:Ha; cbn in H; [|done].
  destruct (_ && _) eqn:E in H; [|done]. injection H as <-.
  erewrite bindM_Ok by (apply load_Ok, Ha). rewrite bindM_lift. unfold sset.
  destruct (Z.ltb_spec (ts_off s + i) 0); [lia|]. rewrite decide_True by lia.
  rewrite (store_Ok m_ta upd_ta _ _ _ a Ha).
  rewrite lookup_take in Hp by lia. rewrite lookup_drop in Hp.
  replace (Z.to_nat (ts_off s) + Z.to_nat i)%nat with (Z.to_nat (ts_off s + i)) in Hp by lia.
  rewrite (list_insert_id a) by done. destruct m; unfold upd_ta; cbn in *. by rewrite list_insert_id.
Qed.

Lemma store_tr_touched m l t t' : m_tr m !! l = Some t ->
  exists m', store_tr l t' m = Ok (tt, m') /\ m_tr m' = <[l := t']> (m_tr m) /\ m_base m' = m_base m /\
    m_f m' = m_f m /\ touched [l] [] [] m m'.
Proof.
  intros H. eexists. split; [apply (store_Ok m_tr upd_tr _ _ _ t H)|]. do 3 (split; [done|]).
  constructor; try done; [|cbn; by rewrite insert_length].
  intros k Hk. cbn. rewrite list_lookup_insert_ne; [done|]. intros ->. apply Hk. left.
Qed.

Lemma store_base_touched m l t t' : m_base m !! l = Some t ->
  exists m', store_base l t' m = Ok (tt, m') /\ m_base m' = <[l := t']> (m_base m) /\ m_tr m' = m_tr m /\
    m_f m' = m_f m /\ touched [] [l] [] m m'.
Proof.
  intros H. eexists. split; [apply (store_Ok m_base upd_base _ _ _ t H)|]. do 3 (split; [done|]).
  constructor; try done; [|cbn; by rewrite insert_length].
  intros k Hk. cbn. rewrite list_lookup_insert_ne; [done|]. intros ->. apply Hk. left.
Qed.

Lemma felems_same_f m m' s : m_f m' = m_f m -> felems m' s = felems m s.
Proof. unfold felems. by intros ->. Qed.

Lemma Forall2_impl_l {A B} (P Q : A -> B -> Prop) l k :
  Forall2 P l k -> (forall x y, x ∈ l -> P x y -> Q x y) -> Forall2 Q l k.
Proof.
  induction 1 as [|x y l k Hxy H IH]; intros HQ; constructor.
  - apply HQ; [left|done].
  - apply IH. intros; apply HQ; [by right|done].
Qed.

(** * Framing of nodes *)
Definition avoids (T B : list nat) (S : list fslice) (ly : Lay) : Prop :=
  (forall l, l ∈ ly_trs ly -> l ∉ T) /\ ly_base ly ∉ B /\
  (forall s s', s ∈ ly_slices ly -> s' ∈ S -> sdisj s s').

Lemma rep_frame T B S m m' c n ly v :
  rep m c n ly v -> touched T B S m m' -> avoids T B S ly -> rep m' c n ly v.
Proof.
  intros [Hn Hb Htr Hs Hw Hmo Hve Hti] Ht (HT & HB & HS). pose proof Ht as [].
  constructor.
  - by rewrite tc_node0.
  - by rewrite tc_base0.
  - by rewrite (telems_touched _ _ _ _ _ _ Ht).
  - eapply Forall2_impl_l; [exact Hs|]. cbn.
    intros l s Hl E. by rewrite tc_tr0 by auto.
  - rewrite tc_f0; [done|]. intros; apply HS; set_solver.
  - rewrite tc_f0; [done|]. intros; apply HS; set_solver.
  - rewrite tc_f0; [done|]. intros; apply HS; set_solver.
  - rewrite tc_f0; [done|]. intros; apply HS; set_solver.
Qed.
