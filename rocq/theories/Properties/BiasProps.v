(** C86: over the choices of the random source, no slot of a winner-take-all bin is favoured, and two vectors collide as often as random sets of eight features have the same winner. *)
From Coq Require Import Factorial.
From Verif.Spec Require Import BiasSpec.
From Verif.Proofs Require Import BiasProofs.
Local Open Scope Z_scope.

(** DWTA: over the n! equally likely outcomes of the shuffle, each of the eight codes comes up equally often. *)
Theorem C86_dwta_slots (numHashes n : Z) (g : rng) (b p : Z) :
  0 <= numHashes -> 8 * numHashes < 2 ^ 53 -> 0 < n <= 2 ^ 53 -> 0 <= b < numHashes -> inside n b p ->
  forall log2 u topK q, 0 <= int_of_f (log2 (f_of_Z numHashes)) <= 31 -> Z.of_nat (length u) = n -> all_different u -> all_above u -> 0 <= q < 8 ->
  (8 * length (filter (fun ds => dwta_hash log2 numHashes n (with_choices g (Z.to_nat (p * (n - 1))) ds) u topK b = Some q) (all_choices (Z.to_nat n))) = fact (Z.to_nat n))%nat.
Proof. exact (dwta_slots numHashes n g b p). Qed.
Print Assumptions C86_dwta_slots.

(** WTA: a feature is the hash as often as it is the winner of a random set of eight features. *)
Theorem C86_wta_winners (numHashes n : Z) (g : rng) (b p : Z) :
  0 <= numHashes -> 8 * numHashes < 2 ^ 53 -> 0 < n <= 2 ^ 53 -> 0 <= b < numHashes -> inside n b p ->
  forall u f, Z.of_nat (length u) = n -> all_different u -> all_above u ->
  (length (filter (fun ds => wta_hash numHashes n (with_choices g (Z.to_nat (p * (n - 1))) ds) u b = Some f) (all_choices (Z.to_nat n))) * length (combos 8 (seqZ 0 n)) =
   fact (Z.to_nat n) * length (filter (fun s => winner u s = Some f) (combos 8 (seqZ 0 n))))%nat.
Proof. exact (wta_winners numHashes n g b p). Qed.
Print Assumptions C86_wta_winners.

(** The collision rate of two vectors is the share of the sets of eight features with the same winner in both. *)
Theorem C86_wta_collide (numHashes n : Z) (g : rng) (b p : Z) :
  0 <= numHashes -> 8 * numHashes < 2 ^ 53 -> 0 < n <= 2 ^ 53 -> 0 <= b < numHashes -> inside n b p ->
  forall u v, Z.of_nat (length u) = n -> Z.of_nat (length v) = n -> all_different u -> all_different v -> all_above u -> all_above v ->
  (length (filter (fun ds => wta_hash numHashes n (with_choices g (Z.to_nat (p * (n - 1))) ds) u b = wta_hash numHashes n (with_choices g (Z.to_nat (p * (n - 1))) ds) v b) (all_choices (Z.to_nat n)))
     * length (combos 8 (seqZ 0 n)) =
   fact (Z.to_nat n) * length (filter (fun s => winner u s = winner v s) (combos 8 (seqZ 0 n))))%nat.
Proof. exact (wta_collide numHashes n g b p). Qed.
Print Assumptions C86_wta_collide.

Theorem C86_dwta_collide (numHashes n : Z) (g : rng) (b p : Z) :
  0 <= numHashes -> 8 * numHashes < 2 ^ 53 -> 0 < n <= 2 ^ 53 -> 0 <= b < numHashes -> inside n b p ->
  forall log2 u v topK, 0 <= int_of_f (log2 (f_of_Z numHashes)) <= 31 ->
  Z.of_nat (length u) = n -> Z.of_nat (length v) = n -> all_different u -> all_different v -> all_above u -> all_above v ->
  (length (filter (fun ds => dwta_hash log2 numHashes n (with_choices g (Z.to_nat (p * (n - 1))) ds) u topK b = dwta_hash log2 numHashes n (with_choices g (Z.to_nat (p * (n - 1))) ds) v topK b)
      (all_choices (Z.to_nat n))) * length (combos 8 (seqZ 0 n)) =
   fact (Z.to_nat n) * length (filter (fun s => winner u s = winner v s) (combos 8 (seqZ 0 n))))%nat.
Proof. exact (dwta_collide numHashes n g b p). Qed.
Print Assumptions C86_dwta_collide.

(** If the number of features is a multiple of eight, every bin is covered. *)
Theorem C86_every_bin m b : 0 < m -> 0 <= b -> inside (8 * m) b (b / m).
Proof. exact (every_bin_inside m b). Qed.
Print Assumptions C86_every_bin.

(** Nine features with the values 0 to 8, and the same with the two greatest exchanged. *)
Definition up9 : list float64 := map f_of_Z [0; 1; 2; 3; 4; 5; 6; 7; 8].
Definition down9 : list float64 := map f_of_Z [0; 1; 2; 3; 4; 5; 6; 8; 7].
Definition differentb (u : list float64) : bool :=
  forallb (fun i => forallb (fun j => bool_decide (i = j) || fltb (default fzero (u !! i)) (default fzero (u !! j)) || fltb (default fzero (u !! j)) (default fzero (u !! i))) (seq 0 (length u))) (seq 0 (length u)).
Lemma differentb_ok u : differentb u = true -> all_different u.
Proof.
  intros H i j x y NE Hi Hj. unfold differentb in H. rewrite forallb_forall in H. specialize (H i). rewrite <- elem_of_list_In, elem_of_seq in H.
  specialize (H ltac:(apply lookup_lt_Some in Hi; lia)). rewrite forallb_forall in H. specialize (H j). rewrite <- elem_of_list_In, elem_of_seq in H.
  specialize (H ltac:(apply lookup_lt_Some in Hj; lia)). rewrite Hi, Hj in H. cbn [default] in H. rewrite bool_decide_false in H by done. by apply orb_prop in H.
Qed.
Example C86_ready : 0 < 9 <= 2 ^ 53 /\ inside 9 0 0 /\ inside 9 8 7 /\ all_different up9 /\ all_different down9 /\ all_above up9 /\ all_above down9.
Proof.
  split; [lia|]. split; [unfold inside; lia|]. split; [unfold inside; lia|]. split; [by apply differentb_ok; vm_compute|]. split; [by apply differentb_ok; vm_compute|].
  split; (apply Forall_forall; intros x Hx; unfold up9, down9 in Hx; apply elem_of_list_fmap in Hx as (z & -> & Hz); repeat (apply elem_of_cons in Hz as [->|Hz]; [by vm_compute|]); by apply elem_of_nil in Hz).
Qed.
(** Of the nine sets of eight features, two have the same winner in both vectors: in bin 8, two in nine outcomes of the eighth shuffle collide. *)
Example C86_two_in_nine g :
  (length (filter (fun ds => wta_hash 9 9 (with_choices g 56 ds) up9 8 = wta_hash 9 9 (with_choices g 56 ds) down9 8) (all_choices 9)) * 9 = fact 9 * 2)%nat.
Proof.
  destruct C86_ready as (N9 & _ & I3 & D1 & D2 & A1 & A2).
  exact (C86_wta_collide 9 9 g 8 7 ltac:(lia) ltac:(lia) N9 ltac:(lia) I3 up9 down9 eq_refl eq_refl D1 D2 A1 A2).
Qed.
(** The greatest of the nine features is the hash in eight of nine outcomes. *)
Example C86_eight_in_nine g :
  (length (filter (fun ds => wta_hash 9 9 (with_choices g 56 ds) up9 8 = Some 8%Z) (all_choices 9)) * 9 = fact 9 * 8)%nat.
Proof.
  destruct C86_ready as (N9 & _ & I3 & D1 & D2 & A1 & A2).
  exact (C86_wta_winners 9 9 g 8 7 ltac:(lia) ltac:(lia) N9 ltac:(lia) I3 up9 8 eq_refl D1 A1).
Qed.
