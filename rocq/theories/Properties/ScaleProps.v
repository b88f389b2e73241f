(** C83: what the hashes do not see. *)
From Verif.Model Require Import Wta Dwta Minhash Srp.
From Verif.Spec Require Import BatchSpec RoundSpec ScaleSpec.
From Verif.Proofs Require Import ScaleProofs ScaleFloat MinhashProofs RoundProofs.
From Verif.Properties Require Import DwtaProps MinhashProps SrpProps.
From Coq Require Import Reals Psatz.
Local Open Scope Z_scope.

(** C83.  The densified winner-take-all hashes depend only on how the values compare, for dense
    vectors and for lists of pairs (whose indices they ignore). *)
Theorem C83_dwta_dense : forall dw data data' topK, same_order data data' -> same_eligible data data' ->
  dwta_GetHashEasy dw data topK = dwta_GetHashEasy dw data' topK.
Proof. exact dwta_dense_order. Qed.
Print Assumptions C83_dwta_dense.

Theorem C83_dwta_sparse : forall dw data data', same_order (map iv_value data) (map iv_value data') ->
  dwta_GetHash dw data = dwta_GetHash dw data'.
Proof. exact dwta_sparse_order. Qed.
Print Assumptions C83_dwta_sparse.

(** So do the minhashes that keep topK entries; [spare] is what follows the data in its array. *)
Theorem C83_minhash : forall m binIds data data' spare spare' topK, length data = length data' ->
  same_order (data ++ spare) (data' ++ spare') ->
  mn_GetHashEasyDense m binIds data spare topK = mn_GetHashEasyDense m binIds data' spare' topK.
Proof. exact minhash_order. Qed.
Print Assumptions C83_minhash.

Definition ord1 : list float64 := [fone; f_of_Z 4; fzero].
Definition ord2 : list float64 := [f_of_Z (-2); f_of_Z 1000; f_of_Z (-7)].
Example C83_order_ex : same_order ord1 ord2 /\ same_eligible ord1 ord2 /\
  ('(dw, _) ← dwta_New log2ex 2 3 gd; dwta_GetHashEasy dw ord1 0) = Ok [0; 2] /\
  ('(dw, _) ← dwta_New log2ex 2 3 gd; dwta_GetHashEasy dw ord2 0) = Ok [0; 2] /\
  mn_GetHashEasyDense MinhashProofs.mn_m3 [0; 1; 2] ord1 [] 2 = mn_GetHashEasyDense MinhashProofs.mn_m3 [0; 1; 2] ord2 [] 2.
Proof.
  split; [|split; [|split; [|split]]]; try (vm_compute; reflexivity).
  - split; [reflexivity|]. intros [|[|[|a]]] [|[|[|b]]] x y x' y'; intros H1 H2 H3 H4; try discriminate; cbn in H1, H2, H3, H4;
      injection H1 as <-; injection H2 as <-; injection H3 as <-; injection H4 as <-; vm_compute; reflexivity.
  - intros [|[|[|a]]] x y H1 H2; try discriminate; cbn in H1, H2; injection H1 as <-; injection H2 as <-; vm_compute; reflexivity.
Qed.

(** In particular multiplying every value by a positive factor, where that is exact, changes none of
    these hashes. *)
Theorem C83_scale : forall c xs ys, (0 < c)%R -> scaled_by c xs ys ->
  (forall m binIds topK, mn_GetHashEasyDense m binIds xs [] topK = mn_GetHashEasyDense m binIds ys [] topK) /\
  (Forall (fun x => fltb (f_of_Z (- 2^63)) x = true) (xs ++ ys) ->
     (forall t, wta_GetHashDense t xs = wta_GetHashDense t ys) /\
     (forall dw topK, dwta_GetHashEasy dw xs topK = dwta_GetHashEasy dw ys topK)).
Proof. exact hashes_scale. Qed.
Print Assumptions C83_scale.

(** The random projections round, so there the factor has to be a power of two: then no hash changes
    (for values up to 2^900 in a vector of up to 2^50 coordinates). *)
Theorem C83_projection : forall dim numHashes ratio g t g' k vec vec', 0 <= dim <= 2 ^ 50 -> 1 <= ratio <= 2 ^ 53 -> 0 <= numHashes ->
  srp_New dim numHashes ratio g = Ok (t, g') -> dim <= Z.of_nat (length vec) ->
  scaled_by (powerRZ 2 k) vec vec' -> Forall (fun x => (Rabs (val x) <= 2 ^ 900)%R) (vec ++ vec') ->
  exists hs, srp_GetHash t vec = Ok hs /\ srp_GetHash t vec' = Ok hs /\ Z.of_nat (length hs) = numHashes.
Proof. exact srp_scale. Qed.
Print Assumptions C83_projection.

Definition sc1 : list float64 := [fone; f_of_Z 3; f_of_Z (-5); fzero].
Definition sc2 : list float64 := [f_of_Z 4; f_of_Z 12; f_of_Z (-20); fzero].
Example C83_scale_ex : scaled_by (powerRZ 2 2) sc1 sc2 /\ (0 < powerRZ 2 2)%R /\
  Forall (fun x => fltb (f_of_Z (- 2^63)) x = true) (sc1 ++ sc2) /\
  Forall (fun x => (Rabs (val x) <= 2 ^ 900)%R) (sc1 ++ sc2) /\
  ('(t, _) ← srp_New 4 3 2 gs; srp_GetHash t sc1) = ('(t, _) ← srp_New 4 3 2 gs; srp_GetHash t sc2).
Proof.
  split; [|split; [apply powerRZ_lt; lra|split; [repeat constructor; vm_compute; reflexivity|split; [|vm_compute; reflexivity]]]].
  - assert (V : forall z, -100 <= z <= 100 -> val (f_of_Z z) = IZR z /\ finite_number (f_of_Z z)) by (intros z H; apply val_small; lia).
    assert (PW : powerRZ 2 2 = 4%R) by (change (powerRZ 2 2) with (2 ^ 2)%R; simpl; lra).
    repeat constructor; try (apply V; lia); rewrite PW; change fone with (f_of_Z 1); change fzero with (f_of_Z 0).
    all: match goal with |- val (f_of_Z ?a) = (4 * val (f_of_Z ?b))%R => rewrite (proj1 (V a ltac:(lia))); try rewrite (proj1 (V b ltac:(lia))); lra end.
  - apply Forall_forall. intros x H. eapply Rle_trans; [|apply (Rle_pow 2 53 900); [lra|lia]].
    apply RoundProofs.val_modest. cbn in H. repeat (apply elem_of_cons in H as [->|H]; [vm_compute; try split; discriminate || exact I|]). by apply elem_of_nil in H.
Qed.
