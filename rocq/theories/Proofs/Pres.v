(** Parts of the memory that an operation leaves alone, whatever cowId it is called with. *)
From Verif.Model Require Export Layer.
From Verif.Proofs Require Export BaseProofs MemProofs.
From Coq Require Import Lia ZifyBool ZifyNat.
Local Open Scope Z_scope.

Definition pres {X A} (π : mem -> X) (c : M A) : Prop := forall m a m', c m = Ok (a, m') -> π m' = π m.

Section Pres.
  Context {X : Type} (π : mem -> X).
  Lemma pres_bind {A B} (c : M A) (f : A -> M B) : pres π c -> (forall a, pres π (f a)) -> pres π (c ≫= f).
  Proof. intros Hc Hf m b m' (a & m1 & H1 & H2)%bindM_inv. by rewrite (Hf _ _ _ _ H2), (Hc _ _ _ H1). Qed.
  Lemma pres_ret {A} (a : A) : pres π (mret a).
  Proof. by intros m b m' [= <- <-]. Qed.
  Lemma pres_lift {A} (r : res A) : pres π (lift r).
  Proof. intros m b m'. unfold lift. destruct r; [|done]. by intros [= <- <-]. Qed.
  Lemma pres_panic {A} p : pres π (mpanic (A := A) p).
  Proof. done. Qed.
  Lemma pres_load {A} (region : mem -> list A) l : pres π (load region l).
  Proof. intros m b m' [_ ->]%load_inv. done. Qed.
  Lemma pres_store {A} (region : mem -> list A) upd l v : (forall g m, π (upd g m) = π m) -> pres π (store region upd l v).
  Proof. intros H m b m'. unfold store. destruct (region m !! l); [|done]. by intros [= <- <-]. Qed.
  Lemma pres_alloc {A} (region : mem -> list A) upd v : (forall g m, π (upd g m) = π m) -> pres π (alloc region upd v).
  Proof. intros H m b m'. unfold alloc. by intros [= <- <-]. Qed.
  Lemma pres_with_rng {A} (f : rng -> res (A * rng)) : (forall g m, π (upd_rng g m) = π m) -> pres π (with_rng f).
  Proof. intros H m b m'. unfold with_rng. destruct (f (m_rng m)) as [[a g]|]; [|done]. by intros [= <- <-]. Qed.
  Lemma pres_mfold {S A} (f : S -> A -> M S) xs : (forall s x, pres π (f s x)) -> forall s, pres π (mfold f s xs).
  Proof.
    intros Hf. induction xs as [|x xs IH]; intros s; cbn [mfold]; [apply pres_ret|]. by apply pres_bind.
  Qed.
  Lemma pres_miter {A} (f : A -> M unit) xs : (forall x, pres π (f x)) -> pres π (miter f xs).
  Proof. intros. by apply pres_mfold. Qed.
  Lemma pres_mmap {A B} (f : A -> M B) xs : (forall x, pres π (f x)) -> pres π (mmap f xs).
  Proof.
    intros Hf. induction xs as [|x xs IH]; cbn [mmap]; [apply pres_ret|]. apply pres_bind; [done|]. intros.
    apply pres_bind; [done|]. intros. apply pres_ret.
  Qed.
End Pres.

Ltac pres_step := first
  [ progress intros
  | apply pres_bind | apply pres_ret | apply pres_lift | apply pres_panic | apply pres_load
  | apply pres_store; [done] | apply pres_alloc; [done] | apply pres_with_rng; [done]
  | apply pres_mfold | apply pres_miter | apply pres_mmap
  | match goal with
    | |- pres _ (if ?b then _ else _) => destruct b
    | |- pres _ (match ?x with _ => _ end) => destruct x
    end ].
Ltac pres_tac := repeat pres_step.

(** Node operations of a forward pass leave alone everything that is not a node part. *)
Ltac unfold_node := unfold node_GetActivation, node_SetlastActivation, get_base, get_train, own_base, own_train,
  base_cloneIfNeeded, train_cloneIfNeeded, node_cloneIfNeeded, node_clone, train_modify, base_modify, tget, tset, fget, fset,
  node_GetLastActivation.

Lemma pres_GetActivation {X} (π : mem -> X) cowId n data i :
  (forall g m, π (upd_ta g m) = π m) -> (forall g m, π (upd_tr g m) = π m) ->
  (forall g m, π (upd_base g m) = π m) -> (forall g m, π (upd_node g m) = π m) ->
  pres π (node_GetActivation cowId n data i).
Proof. intros. unfold_node. pres_tac. Qed.

Lemma pres_SetlastActivation {X} (π : mem -> X) cowId n i x :
  (forall g m, π (upd_ta g m) = π m) -> (forall g m, π (upd_tr g m) = π m) ->
  (forall g m, π (upd_base g m) = π m) -> (forall g m, π (upd_node g m) = π m) ->
  pres π (node_SetlastActivation cowId n i x).
Proof. intros. unfold_node. pres_tac. Qed.

(** The shape of the node arrays. *)
Definition na_shape (m : mem) : list nat := map length (m_na m).
Lemma pres_store_na l ns ns' i x : forall m m', m_na m !! l = Some ns -> sset ns i x = Ok ns' ->
  store_na l ns' m = Ok (tt, m') -> na_shape m' = na_shape m.
Proof.
  intros m m' Hl Hs. unfold store. rewrite Hl. intros [= <-]. unfold na_shape. cbn.
  apply sset_Ok in Hs as [_ ->]. apply list_eq. intros k. rewrite !list_lookup_fmap.
  destruct (decide (k = l)) as [->|Hne].
  - rewrite list_lookup_insert, Hl by (by eapply lookup_lt_Some). cbn. by rewrite insert_length.
  - by rewrite list_lookup_insert_ne.
Qed.
