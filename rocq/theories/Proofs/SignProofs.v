(** Random projections, counted over their random choices. *)
From Coq Require Import Factorial.
From stdpp Require Import sorting.
From Verif.Spec Require Import SignSpec.
From Verif.Proofs Require Import ShuffleProofs FloatOrder FloatReal SrpProofs BiasCount BiasOrders BiasSets BiasTables BiasProofs.
From Coq Require Import Lia.
Local Open Scope Z_scope.

(** * Signs *)
Lemma all_signs_length k : length (all_signs k) = (2 ^ k)%nat.
Proof. induction k as [|k IH]; [done|]. cbn [all_signs]. rewrite app_length, !map_length, IH. cbn. lia. Qed.
Lemma in_all_signs k ds : ds ∈ all_signs k -> length ds = k /\ Forall (fun d => d = 0 \/ d = 1) ds.
Proof.
  revert ds. induction k as [|k IH]; intros ds H; cbn [all_signs] in H.
  - apply elem_of_list_singleton in H as ->. split; [done|constructor].
  - apply elem_of_app in H as [H|H]; apply elem_of_list_fmap in H as (ds' & -> & H); destruct (IH _ H) as [L F]; (split; [cbn; lia|constructor; [auto|done]]).
Qed.
Definition flip (ds : list Z) : list Z := map (fun d => 1 - d) ds.
Lemma flip_signs k : map flip (all_signs k) ≡ₚ all_signs k.
Proof.
  induction k as [|k IH]; [done|]. cbn [all_signs]. rewrite map_app, !map_map. cbn [flip map].
  replace (map (fun x => 1 - 0 :: map (fun d => 1 - d) x) (all_signs k)) with (map (cons 1) (map flip (all_signs k))) by (by rewrite map_map).
  replace (map (fun x => 1 - 1 :: map (fun d => 1 - d) x) (all_signs k)) with (map (cons 0) (map flip (all_signs k))) by (by rewrite map_map).
  rewrite IH. apply Permutation_app_comm.
Qed.
Lemma count_perm {A} (P : A -> bool) xs ys : xs ≡ₚ ys -> count P xs = count P ys.
Proof. intros H. unfold count. by rewrite H. Qed.
Lemma count_flip k P : count P (all_signs k) = count (fun ds => P (flip ds)) (all_signs k).
Proof. transitivity (count P (map flip (all_signs k))); [apply count_perm; by rewrite flip_signs|apply count_map]. Qed.

(** * Flipping all the signs negates the sum *)
Lemma fadd_fneg s v : fadd s (fneg v) = fsub s v.
Proof.
  unfold fadd, fsub, fneg. destruct s as [a|a| |a m e], v as [b|b| |b m' e']; try done; try (by destruct a, b).
Qed.
Lemma fsub_fneg s v : fsub s (fneg v) = fadd s v.
Proof. rewrite <- fadd_fneg. f_equal. destruct v as [a|a| |a m e]; cbn; rewrite ?negb_involutive; done. Qed.
Lemma acc_flip s s' rb v : nsim s s' -> nsim (srp_acc s rb v) (srp_acc s' (negb rb) v).
Proof.
  intros H. apply (nsim_acc _ _ rb v) in H. destruct rb; cbn [srp_acc negb] in *; [by rewrite fadd_fneg in H|by rewrite fsub_fneg in H].
Qed.
Lemma sum_flip ind ds u : Forall (fun d => d = 0 \/ d = 1) ds -> nsim (sum_with ind ds u) (sum_with ind (flip ds) u).
Proof.
  unfold sum_with, signed_sum, flip. intros HF. assert (H0 : nsim fzero fzero) by (by right). revert H0.
  generalize fzero at 1 3 as s. generalize fzero as s'. revert ind. induction HF as [|d ds Hd HF IH]; intros ind s' s HS; [by destruct ind|].
  destruct ind as [|f ind]; [done|]. cbn [map zip zip_with fold_left]. apply IH. destruct (u !! Z.to_nat f) as [v|]; [|done].
  pose proof (acc_flip _ _ (d =? 0) v HS) as HA. unfold srp_acc in HA. destruct Hd as [-> | ->]; exact HA.
Qed.

(** * The four kinds of sums *)
Lemma count_cons {A} (P : A -> bool) x xs : count P (x :: xs) = ((if P x then 1 else 0) + count P xs)%nat.
Proof. unfold count. rewrite filter_cons. destruct (P x); [by rewrite decide_True|by rewrite decide_False]. Qed.
Lemma count_balance {A} (P Q R T : A -> bool) xs :
  (forall x, x ∈ xs -> ((if P x then 1 else 0) + (if Q x then 1 else 0) = (if R x then 1 else 0) + (if T x then 1 else 0))%nat) ->
  (count P xs + count Q xs = count R xs + count T xs)%nat.
Proof.
  induction xs as [|x xs IH]; intros H; [done|]. rewrite !count_cons. specialize (IH ltac:(intros y Hy; apply H; by right)). specialize (H x ltac:(by left)). lia.
Qed.
Lemma kinds s s' : nsim s s' ->
  ((if fleb fzero s' then 1 else 0) + (if is_nan s then 1 else 0) = (if negb (fleb fzero s) then 1 else 0) + (if is_zero s then 1 else 0))%nat.
Proof. intros [->|[Z1 Z2]]; [|by destruct s, s']. destruct s as [a|a| |a m e]; try done; by destruct a. Qed.
Lemma signs_balance ind k u :
  (count (fun ds => fleb fzero (sum_with ind ds u)) (all_signs k) + count (fun ds => is_nan (sum_with ind ds u)) (all_signs k) =
   count (fun ds => negb (fleb fzero (sum_with ind ds u))) (all_signs k) + count (fun ds => is_zero (sum_with ind ds u)) (all_signs k))%nat.
Proof.
  rewrite (count_flip k (fun ds => fleb fzero (sum_with ind ds u))). apply count_balance. intros ds Hds. destruct (in_all_signs _ _ Hds) as [_ HF].
  apply kinds. by apply sum_flip.
Qed.

(** * The tables *)
Definition skip (k : nat) (g : rng) : rng := {| rstream := rstream g; rpos := (rpos g + k)%nat |}.
Fixpoint srp_order (sam p : nat) (a : list Z) (g : rng) : list Z * rng :=
  match p with O => (a, g) | S p => let s := srp_order sam p a g in let r := shuffle s.1 s.2 in (r.1, skip sam r.2) end.
Definition bits_at (g : rng) (pos k : nat) : list bool := map (fun j => Z.rem (rstream g (pos + j)%nat mod 2 ^ 63) 2 =? 0) (seq 0 k).
Lemma srp_order_length sam p a g : length (srp_order sam p a g).1 = length a.
Proof. induction p as [|p IH]; [done|]. cbn [srp_order fst]. by rewrite shuffle_length. Qed.
Lemma srp_order_perm sam p a g : (srp_order sam p a g).1 ≡ₚ a.
Proof. induction p as [|p IH]; [done|]. cbn [srp_order fst]. destruct (shuffle _ _) as [l' g'] eqn:E. apply shuffle_Permutation in E. cbn. by rewrite E. Qed.
Lemma srp_order_rng sam p a g : (srp_order sam p a g).2 = skip (p * (Nat.pred (length a) + sam)) g.
Proof.
  induction p as [|p IH]; [unfold skip; cbn; destruct g; cbn; f_equal; lia|]. cbn [srp_order snd]. unfold shuffle. rewrite fisher_rng, IH, srp_order_length. unfold skip. cbn. f_equal. lia.
Qed.
Lemma srp_order_agree sam p a g g' : rpos g = rpos g' -> (forall j, (rpos g <= j < rpos g + p * (Nat.pred (length a) + sam))%nat -> rstream g j = rstream g' j) ->
  (srp_order sam p a g).1 = (srp_order sam p a g').1.
Proof.
  intros HP. induction p as [|p IH]; intros HS; [done|]. cbn [srp_order fst]. rewrite IH by (intros j Hj; apply HS; lia). unfold shuffle. rewrite !srp_order_length.
  apply fisher_agree; rewrite !srp_order_rng; unfold skip; cbn [rpos rstream]; [by rewrite HP|]. intros j Hj. apply HS. set (w := Nat.pred (length a)) in *. clearbody w. pose proof (Nat.le_0_l (p * (w + sam))). nia.
Qed.
Lemma srp_sample_bits a g k : (k <= length a)%nat -> foldM (srp_sample a) ([], [], g) (seqZ 0 (Z.of_nat k)) = Ok (take k a, bits_at g (rpos g) k, skip k g).
Proof.
  induction k as [|k IH]; intros Hk; [cbn; unfold skip; rewrite Nat.add_0_r; by destruct g|].
  replace (Z.of_nat (S k)) with (Z.of_nat k + 1) by lia. rewrite seqZ_app by lia. rewrite foldM_app, IH by lia.
  assert (seqZ (0 + Z.of_nat k) 1 = [Z.of_nat k]) as -> by done. cbn [foldM]. unfold srp_sample.
  destruct (lookup_lt_is_Some_2 a k) as [x Hx]; [lia|]. rewrite (sget_nat _ _ _ Hx). cbn [mbind res_bind]. unfold rand_int, draw_below, draw. cbn [mbind res_bind].
  rewrite (take_S_r _ _ _ Hx). unfold bits_at. rewrite seq_S, map_app. cbn [map]. unfold skip. cbn [rstream rpos Nat.add]. by rewrite Nat.add_succ_r.
Qed.
Section Rows.
  Context (dim ratio H : Z) (Hd : 0 < dim < 2^53) (Hr : 1 <= ratio <= 2^53) (HH : 0 <= H).
  Notation sam := (Z.to_nat (sampled dim ratio)).
  Lemma sampled_le : 0 <= sampled dim ratio <= dim.
  Proof using Hd Hr. unfold sampled. split; [apply Z.div_pos; lia|]. apply Z.lt_succ_r, Z.div_lt_upper_bound; nia. Qed.
  Definition features_of (g : rng) (i : nat) : list Z := sort_ints (take sam (srp_order sam (S i) (seqZ 0 dim) g).1).
  Definition bits_of (g : rng) (i : nat) : list bool := bits_at g (rpos g + i * (Nat.pred (Z.to_nat dim) + sam) + Nat.pred (Z.to_nat dim)) sam.
  Lemma srp_New_rows g : exists t g', srp_New dim H ratio g = Ok (t, g') /\ srp_good t dim H /\
    srp_indices t = map (features_of g) (seq 0 (Z.to_nat H)) /\ srp_randBits t = map (bits_of g) (seq 0 (Z.to_nat H)).
  Proof using Hd Hr HH.
    destruct (srp_New_ok dim H ratio g ltac:(lia) Hr HH) as (t & g' & HN & _ & _ & HG). exists t, g'. split; [done|]. split; [done|].
    unfold srp_New in HN. rewrite int_ceil_div in HN by lia. fold (sampled dim ratio) in HN. unfold make_slice at 1 2 in HN. replace (dim <? 0) with false in HN by lia. replace (H <? 0) with false in HN by lia.
    cbn [mbind res_bind] in HN. rewrite replicate_length, Z2Nat.id in HN by lia. pose proof sampled_le as SL.
    destruct (foldM_inv_prefix (fun pre st => let '(a, inds, bits, g0) := st in (a, g0) = srp_order sam (length pre) (seqZ 0 dim) g /\
       inds = map (features_of g) (seq 0 (length pre)) /\ bits = map (bits_of g) (seq 0 (length pre)))
      (srp_step (sampled dim ratio)) (seqZ 0 H) (seqZ 0 dim, [], [], g)) as ([[[a inds] bits] g1] & HE & _ & HI & HB).
    - done.
    - intros pre x [[[a inds] bits] g0] (Ha & Hi & Hb) _. unfold srp_step. destruct (shuffle a g0) as [a' g1] eqn:Es.
      unfold make_slice. replace (sampled dim ratio <? 0) with false by lia. cbn [mbind res_bind].
      assert (HS : srp_order sam (S (length pre)) (seqZ 0 dim) g = (a', skip sam g1)) by (cbn [srp_order]; rewrite <- Ha; cbn [fst snd]; by rewrite Es).
      assert (La : length a' = Z.to_nat dim) by (change a' with ((a', skip sam g1).1); rewrite <- HS, srp_order_length, seqZ_length; done).
      assert (Eg : g1 = skip (length pre * (Nat.pred (Z.to_nat dim) + sam) + Nat.pred (Z.to_nat dim)) g).
      { assert (E2 : g1 = (shuffle a g0).2) by (by rewrite Es). rewrite E2. unfold shuffle. rewrite fisher_rng.
        assert (La0 : length a = Z.to_nat dim) by (change a with ((a, g0).1); rewrite Ha, srp_order_length, seqZ_length; done).
        assert (E0 : g0 = (srp_order sam (length pre) (seqZ 0 dim) g).2) by (by rewrite <- Ha). rewrite E0, srp_order_rng, La0, seqZ_length. unfold skip. cbn. f_equal. lia. }
      pose proof (srp_sample_bits a' g1 sam ltac:(lia)) as HSB. rewrite Z2Nat.id in HSB by lia. rewrite HSB. cbn [mbind res_bind].
      eexists. split; [reflexivity|]. cbv beta iota. rewrite app_length. cbn [length]. rewrite Nat.add_1_r. split; [by rewrite HS|]. rewrite seq_S, !map_app. cbn [map Nat.add].
      split; [rewrite Hi; f_equal; unfold features_of; by rewrite HS|]. rewrite Hb. f_equal. f_equal. unfold bits_of. rewrite Eg. unfold bits_at, skip. cbn [rstream rpos]. by rewrite Nat.add_assoc.
    - rewrite HE in HN. cbn [mbind res_bind] in HN. injection HN as <- _. cbn. rewrite seqZ_length in HI, HB. done.
  Qed.
  Section One.
    Context (b : Z) (Hb : 0 <= b < H).
    Lemma features_ok g : srp_features dim H ratio g b = Some (features_of g (Z.to_nat b)).
    Proof using Hd Hr HH Hb.
      unfold srp_features. destruct (srp_New_rows g) as (t & g' & HN & _ & HI & _). rewrite HN. cbn [ok mbind option_bind fst]. rewrite HI, list_lookup_fmap, lookup_seq_lt by lia. done.
    Qed.
    Lemma bit_ok g u : dim <= Z.of_nat (length u) -> srp_bit dim H ratio g u b = Some (srp_sign (signed_sum (zip (features_of g (Z.to_nat b)) (bits_of g (Z.to_nat b))) u)).
    Proof using Hd Hr HH Hb.
      intros HL. unfold srp_bit. destruct (srp_New_rows g) as (t & g' & HN & HG & HI & HB). rewrite HN. cbn [ok mbind option_bind fst].
      destruct (srp_dense_is_sign t dim H u HG HL HH) as (hs & HE & _ & HS). rewrite HE. cbn [ok mbind option_bind].
      destruct (HS b Hb) as (ind & bits & Hind & Hbits & Hh). rewrite Hh. rewrite HI, list_lookup_fmap, lookup_seq_lt in Hind by lia. rewrite HB, list_lookup_fmap, lookup_seq_lt in Hbits by lia.
      cbn in Hind, Hbits. injection Hind as <-. injection Hbits as <-. done.
    Qed.
    Notation w := (Nat.pred (Z.to_nat dim)).
    Lemma draws_eq : draws_before dim ratio b = (Z.to_nat b * (w + sam))%nat /\ draws_to_signs dim ratio b = (Z.to_nat b * (w + sam) + w)%nat.
    Proof using Hd Hr HH Hb.
      pose proof sampled_le as SL. assert (E : draws_before dim ratio b = (Z.to_nat b * (w + sam))%nat).
      { unfold draws_before. rewrite Z2Nat.inj_mul by lia. f_equal. lia. }
      split; [done|]. unfold draws_to_signs. rewrite E. lia.
    Qed.
    (** The signs. *)
    Lemma features_signs g ds : features_of (with_choices g (draws_to_signs dim ratio b) ds) (Z.to_nat b) = features_of g (Z.to_nat b).
    Proof using Hd Hr HH Hb.
      unfold features_of. do 2 f_equal. cbn [srp_order fst]. destruct draws_eq as [_ E].
      assert (E1 : (srp_order sam (Z.to_nat b) (seqZ 0 dim) (with_choices g (draws_to_signs dim ratio b) ds)).1 = (srp_order sam (Z.to_nat b) (seqZ 0 dim) g).1).
      { apply srp_order_agree; [done|]. rewrite seqZ_length. intros j Hj. unfold with_choices in *. cbn [rpos rstream] in *. by rewrite decide_True by lia. }
      rewrite E1. unfold shuffle. apply fisher_agree; rewrite !srp_order_rng, ?srp_order_length, ?seqZ_length; unfold skip; cbn [rpos rstream]; [done|].
      intros j Hj. unfold with_choices in *. cbn [rpos rstream] in *. by rewrite decide_True by lia.
    Qed.
    Lemma bits_signs g ds : ds ∈ all_signs sam -> bits_of (with_choices g (draws_to_signs dim ratio b) ds) (Z.to_nat b) = map (fun d => d =? 0) ds.
    Proof using Hd Hr HH Hb.
      intros Hds. destruct (in_all_signs _ _ Hds) as [L F]. destruct draws_eq as [_ E]. unfold bits_of, bits_at. apply list_eq. intros j. rewrite !list_lookup_fmap.
      destruct (decide (j < sam)%nat) as [LJ|LJ].
      - rewrite lookup_seq_lt by done. destruct (lookup_lt_is_Some_2 ds j) as [d Hj]; [lia|]. rewrite Hj. cbn [fmap option_fmap option_map]. f_equal. unfold with_choices. cbn [rstream rpos].
        rewrite decide_False by lia. replace (_ - _)%nat with j by lia. rewrite Hj. cbn [default]. rewrite Forall_lookup in F. destruct (F _ _ Hj) as [-> | ->]; reflexivity.
      - rewrite lookup_seq_ge by lia. rewrite lookup_ge_None_2 by lia. done.
    Qed.
    Lemma bit_signs g u ds : dim <= Z.of_nat (length u) -> ds ∈ all_signs sam ->
      srp_bit dim H ratio (with_choices g (draws_to_signs dim ratio b) ds) u b = Some (srp_sign (sum_with (features_of g (Z.to_nat b)) ds u)).
    Proof using Hd Hr HH Hb. intros HL Hds. rewrite bit_ok by done. rewrite features_signs, bits_signs by done. reflexivity. Qed.
    Lemma bits_balance g u : dim <= Z.of_nat (length u) -> exists ind, srp_features dim H ratio g b = Some ind /\
      (length (filter (fun ds => srp_bit dim H ratio (with_choices g (draws_to_signs dim ratio b) ds) u b = Some 0%Z) (all_signs sam)) +
       length (filter (fun ds => is_nan (sum_with ind ds u) = true) (all_signs sam)) =
       length (filter (fun ds => srp_bit dim H ratio (with_choices g (draws_to_signs dim ratio b) ds) u b = Some 1%Z) (all_signs sam)) +
       length (filter (fun ds => is_zero (sum_with ind ds u) = true) (all_signs sam)))%nat.
    Proof using Hd Hr HH Hb.
      intros HL. exists (features_of g (Z.to_nat b)). split; [apply features_ok|]. rewrite !filter_count.
      etransitivity; [|etransitivity; [apply (signs_balance (features_of g (Z.to_nat b)) sam u)|]].
      - f_equal; apply count_ext; intros ds Hds.
        + rewrite bit_signs by done. unfold srp_sign, fgeb, fleb. destruct (SFleb _ _); reflexivity.
        + by destruct (is_nan _).
      - f_equal; apply count_ext; intros ds Hds.
        + rewrite bit_signs by done. unfold srp_sign, fgeb, fleb. destruct (SFleb _ _); reflexivity.
        + by destruct (is_zero _).
    Qed.
    (** The features. *)
    Notation pos := (draws_before dim ratio b).
    Definition cur_of (g : rng) : list Z := (srp_order sam (Z.to_nat b) (seqZ 0 dim) g).1.
    Definition order_at (g : rng) (ds : list Z) : list Z := (srp_order sam (S (Z.to_nat b)) (seqZ 0 dim) (with_choices g pos ds)).1.
    Lemma order_at_shuffle g ds : order_at g ds = (shuffle (cur_of g) {| rstream := rstream (with_choices g pos ds); rpos := (rpos g + pos)%nat |}).1.
    Proof using Hd Hr HH Hb.
      destruct draws_eq as [E _]. unfold order_at, cur_of. cbn [srp_order fst]. rewrite srp_order_rng, seqZ_length. unfold skip. cbn [rstream rpos]. rewrite <- E. do 2 f_equal.
      apply srp_order_agree; [done|]. rewrite seqZ_length, <- E. intros j Hj. unfold with_choices in *. cbn [rpos rstream] in *. by rewrite decide_True by lia.
    Qed.
    Lemma at_makes g ds : choices (Z.to_nat dim) ds -> makes {| rstream := rstream (with_choices g pos ds); rpos := (rpos g + pos)%nat |} (Z.to_nat dim) ds.
    Proof. intros [_ HC] k d Hk. cbn. rewrite decide_False by lia. replace (_ - _)%nat with k by lia. rewrite Hk. cbn. apply Z.mod_small. by apply HC. Qed.
    Lemma at_enum g : enum dim (map (order_at g) (all_choices (Z.to_nat dim))).
    Proof using Hd Hr HH Hb.
      set (cur := cur_of g). assert (PC : cur ≡ₚ seqZ 0 dim) by apply srp_order_perm.
      assert (NC : NoDup cur) by (rewrite PC; apply NoDup_seqZ). assert (LC : length cur = Z.to_nat dim) by (rewrite PC; apply seqZ_length).
      split.
      - apply NoDup_fmap_2_strong; [|apply all_choices_NoDup]. intros ds ds' H1 H2 E. apply in_all_choices in H1, H2. rewrite !order_at_shuffle in E. fold cur in E.
        destruct (shuffle_fair cur (order_at g ds) NC) as (d0 & C0 & HF); [rewrite PC; apply srp_order_perm|]. rewrite LC in *.
        assert (M1 := proj1 (HF _) (eq_sym (order_at_shuffle g ds))). assert (M2 := proj1 (HF _) (eq_trans (eq_sym E) (eq_sym (order_at_shuffle g ds)))).
        rewrite (makes_unique dim (proj1 Hd) _ ds d0 H1 C0 (at_makes g ds H1) M1). symmetry. exact (makes_unique dim (proj1 Hd) _ ds' d0 H2 C0 (at_makes g ds' H2) M2).
      - intros o. split.
        + intros Ho. apply elem_of_list_fmap in Ho as (ds & -> & _). apply srp_order_perm.
        + intros PO. destruct (shuffle_fair cur o NC) as (ds & C0 & HF); [by rewrite PC|]. rewrite LC in *. apply elem_of_list_fmap. exists ds. split; [|by apply in_all_choices].
          rewrite order_at_shuffle. symmetry. apply HF. by apply at_makes.
    Qed.
    Lemma samples_fair g s : s ∈ combos sam (seqZ 0 dim) ->
      (length (filter (fun ds => srp_features dim H ratio (with_choices g pos ds) b = Some s) (all_choices (Z.to_nat dim))) * length (combos sam (seqZ 0 dim)) = fact (Z.to_nat dim))%nat.
    Proof using Hd Hr HH Hb.
      intros Hs. pose proof sampled_le as SL. rewrite filter_count.
      pose proof (sets_fair dim (map (order_at g) (all_choices (Z.to_nat dim))) 0 sam (at_enum g) ltac:(lia) (fun s' => bool_decide (s' = s))) as HF.
      rewrite map_length, all_choices_length, count_map in HF.
      assert (C1 : count (fun s' => bool_decide (s' = s)) (combos sam (seqZ 0 dim)) = 1%nat).
      { assert (ND : NoDup (combos sam (seqZ 0 dim))) by apply combos_NoDup, NoDup_seqZ. revert Hs ND. generalize (combos sam (seqZ 0 dim)) as xs.
        assert (Z0 : forall xs, s ∉ xs -> count (fun s' => bool_decide (s' = s)) xs = 0%nat).
        { induction xs as [|x xs IH]; intros N; [done|]. rewrite count_cons, bool_decide_false by (intros ->; apply N; left). rewrite IH; [done|]. intros N'. apply N. by right. }
        induction xs as [|x xs IH]; intros Hin ND; [by apply elem_of_nil in Hin|]. apply NoDup_cons in ND as [N1 N2]. rewrite count_cons. apply elem_of_cons in Hin as [<-|Hin].
        - rewrite bool_decide_true by done. by rewrite Z0.
        - rewrite bool_decide_false by (intros ->; done). by apply IH. }
      rewrite C1, Nat.mul_1_r in HF. rewrite <- HF. f_equal. apply count_ext. intros ds _. rewrite features_ok. unfold features_of, window. rewrite drop_0. fold (order_at g ds).
      apply bool_decide_ext. unfold set_of, sort_ints. split; [intros E; by injection E|by intros ->].
    Qed.
    Lemma unbiased g u : dim <= Z.of_nat (length u) ->
      (forall ind ds, srp_features dim H ratio g b = Some ind -> ds ∈ all_signs sam -> is_zero (sum_with ind ds u) = false /\ is_nan (sum_with ind ds u) = false) ->
      forall q, q = 0 \/ q = 1 ->
      (2 * length (filter (fun ds => srp_bit dim H ratio (with_choices g (draws_to_signs dim ratio b) ds) u b = Some q) (all_signs sam)) = 2 ^ sam)%nat.
    Proof using Hd Hr HH Hb.
      intros HL HZ. destruct (bits_balance g u HL) as (ind & Hind & HB).
      assert (Z0 : forall P : list Z -> bool, (forall ds, ds ∈ all_signs sam -> P ds = false) -> length (filter (fun ds => P ds = true) (all_signs sam)) = 0%nat).
      { intros P. generalize (all_signs sam) as xs. induction xs as [|x xs IH]; intros HP; [done|]. rewrite filter_cons, decide_False by (rewrite HP by (by left); done). apply IH. intros ds Hds. apply HP. by right. }
      rewrite (Z0 (fun ds => is_nan (sum_with ind ds u))), (Z0 (fun ds => is_zero (sum_with ind ds u))) in HB by (intros ds Hds; by apply (HZ ind ds)). rewrite !Nat.add_0_r in HB.
      assert (HT : (length (filter (fun ds => srp_bit dim H ratio (with_choices g (draws_to_signs dim ratio b) ds) u b = Some 0%Z) (all_signs sam)) +
        length (filter (fun ds => srp_bit dim H ratio (with_choices g (draws_to_signs dim ratio b) ds) u b = Some 1%Z) (all_signs sam)) = 2 ^ sam)%nat).
      { rewrite <- all_signs_length. rewrite !filter_count.
        transitivity (count (fun _ => true) (all_signs sam) + count (fun _ => false) (all_signs sam))%nat.
        - apply count_balance. intros ds Hds. rewrite bit_signs by done. unfold srp_sign. destruct (fgeb _ _); reflexivity.
        - rewrite count_true. assert (count (fun _ => false) (all_signs sam) = 0%nat) as -> by (apply (Z0 (fun _ => false)); done). lia. }
      intros q [-> | ->]; lia.
    Qed.
  End One.
End Rows.
