(** Layers and networks made by New have the expected content, and no two of their parts overlap. *)
From Verif.Proofs Require Export NetTrain NodeCow.
From Coq Require Import Lia ZifyBool ZifyNat.

Lemma mmap_empty c {A} (xs : list A) m :
  mmap (fun _ => NewEmptyNode c) xs m =
    Ok (seq (length (m_node m)) (length xs),
        upd_node (fun r => r ++ map (fun b => mkNode c b ts_nil) (seq (length (m_base m)) (length xs)))
          (upd_base (fun r => r ++ replicate (length xs) (emptyBase c)) m)).
Proof.
  revert m. induction xs as [|x xs IH]; intros m; cbn [mmap].
  - cbn. f_equal. f_equal. destruct m; unfold upd_node, upd_base; cbn. by rewrite !app_nil_r.
  - erewrite bindM_Ok by reflexivity. erewrite bindM_Ok by apply IH. cbn. rewrite !app_length. cbn [length].
    unfold mret, M_ret. rewrite !Nat.add_1_r. f_equal. f_equal.
    unfold upd_node, upd_base; cbn. rewrite <- !app_assoc. cbn. done.
Qed.

Lemma mmap_normals {A} (xs : list A) m :
  mmap (fun _ => x ← normFloat64; mret (fadd (fmul x stdDev) fzero)) xs m =
    Ok (map (norm_draw (m_norm m)) (seq (m_npos m) (length xs)), upd_npos (m_npos m + length xs) m).
Proof.
  revert m. induction xs as [|x xs IH]; intros m; cbn [mmap].
  - cbn. f_equal. f_equal. destruct m; unfold upd_npos; cbn. by rewrite Nat.add_0_r.
  - erewrite bindM_Ok by reflexivity. erewrite bindM_Ok by apply IH. cbn. unfold mret, M_ret. f_equal. f_equal.
    unfold upd_npos; cbn. f_equal. lia.
Qed.
Lemma normals_Ok n m : 0 <= n ->
  normals n m = Ok (map (norm_draw (m_norm m)) (seq (m_npos m) (Z.to_nat n)), upd_npos (m_npos m + Z.to_nat n) m).
Proof.
  intros. unfold normals. rewrite bindM_lift. unfold make_slice. destruct (Z.ltb_spec n 0); [lia|].
  rewrite mmap_normals, replicate_length. done.
Qed.

Lemma Update_own E m c p bp ts b adamTDim id layerId ty batch ws bias ms vs tb :
  m_node m !! p = Some (mkNode c bp ts) -> m_base m !! bp = Some b -> b_cowId b = c -> 0 <= adamTDim ->
  node_Update E c p adamTDim id layerId ty batch ws bias ms vs tb m =
    Ok (p, upd_node (fun r => <[p := mkNode c bp tb]> r)
             (upd_base (fun r => <[bp := mkBase c ty batch id ws ws (if e_UseAdam E then ms else b_mom b)
                 (if e_UseAdam E then vs else b_vel b)
                 (if e_UseAdam E then mkFs (length (m_f m)) 0 adamTDim else b_t b)
                 bias (b_tBias b) (b_momBias b) (b_velBias b) bias]> r)
               (if e_UseAdam E then upd_f (fun r => r ++ [replicate (Z.to_nat adamTDim) fzero]) m else m))).
Proof.
  intros Hn Hb Hc Hd. unfold node_Update, node_cloneIfNeeded, own_base, base_cloneIfNeeded.
  assert (Hm : upd_node (fun r => <[p := mkNode c bp ts]> r) m = m).
  { destruct m; unfold upd_node; cbn in *. f_equal. by apply list_insert_id. }
  assert (E1 : node_cloneIfNeeded c p m = Ok (p, m)).
  { unfold node_cloneIfNeeded. erewrite bindM_Ok by (by apply load_Ok). cbn. by rewrite Z.eqb_refl. }
  assert (E2 : own_base c p m = Ok (bp, m)).
  { unfold own_base, base_cloneIfNeeded. erewrite bindM_Ok by (by apply load_Ok). cbn [n_base].
    erewrite bindM_Ok; cycle 1.
    { erewrite bindM_Ok by (by apply load_Ok). rewrite Hc, Z.eqb_refl. done. }
    cbn [n_cowId n_train]. erewrite bindM_Ok by (by eapply store_Ok). rewrite Hm. done. }
  fold (node_cloneIfNeeded c p). rewrite (bindM_Ok _ _ _ _ _ E1). fold (own_base c p).
  rewrite (bindM_Ok _ _ _ _ _ E2). erewrite bindM_Ok by (by apply load_Ok).
  set (m1 := if e_UseAdam E then upd_f (fun r => r ++ [replicate (Z.to_nat adamTDim) fzero]) m else m).
  assert (E3 : (if e_UseAdam E then t ← make_f adamTDim; mret (ms, vs, t) else mret (b_mom b, b_vel b, b_t b)) m =
    Ok (((if e_UseAdam E then ms else b_mom b), (if e_UseAdam E then vs else b_vel b),
         (if e_UseAdam E then mkFs (length (m_f m)) 0 adamTDim else b_t b)), m1)).
  { unfold m1. destruct (e_UseAdam E); [|done]. unfold make_f.
    erewrite bindM_Ok; cycle 1.
    { rewrite bindM_lift. unfold make_slice. destruct (Z.ltb_spec adamTDim 0); [lia|]. erewrite bindM_Ok by reflexivity. reflexivity. }
    rewrite ?replicate_length, ?Z2Nat.id by done. reflexivity. }
  rewrite (bindM_Ok _ _ _ _ _ E3). cbn.
  assert (Hn1 : m_node m1 !! p = Some (mkNode c bp ts)) by (unfold m1; destruct (e_UseAdam E); done).
  assert (Hb1 : m_base m1 !! bp = Some b) by (unfold m1; destruct (e_UseAdam E); done).
  erewrite bindM_Ok by (by eapply store_Ok). erewrite bindM_Ok by (by apply load_Ok).
  cbn. erewrite bindM_Ok by (by eapply store_Ok). rewrite Hc. done.
Qed.

Lemma fslice_sub_Ok m l a lo hi : m_f m !! l = Some a -> 0 <= lo <= hi -> hi <= Z.of_nat (length a) ->
  fslice_sub (mkFs l 0 (Z.of_nat (length a))) lo hi m = Ok (mkFs l lo (hi - lo), m).
Proof.
  intros Hl ? ?. unfold fslice_sub. cbn [fs_len fs_loc fs_off].
  erewrite bindM_Ok with (a := Z.of_nat (length a)) (m1 := m).
  - destruct (Z.leb_spec 0 lo), (Z.leb_spec lo hi), (Z.leb_spec hi (Z.of_nat (length a))); try lia. cbn. done.
  - destruct (Z.leb_spec (Z.of_nat (length a)) 0).
    + replace (Z.of_nat (length a)) with 0 by lia. done.
    + erewrite bindM_Ok by (by apply load_Ok). cbn. by rewrite Z.sub_0_r.
Qed.

Lemma fspare_total m s xs : felems m s = Some xs -> exists sp, fspare s m = Ok (sp, m).
Proof.
  unfold felems, fspare. destruct (_ <=? _); [by eexists|].
  destruct (m_f m !! fs_loc s) eqn:E; cbn [mbind option_bind]; [|done]. intros _.
  erewrite bindM_Ok by (by apply load_Ok). by eexists.
Qed.

Lemma felems_part m l a lo n : m_f m !! l = Some a -> 0 <= lo -> 0 <= n -> lo + n <= Z.of_nat (length a) ->
  felems m (mkFs l lo n) = Some (take (Z.to_nat n) (drop (Z.to_nat lo) a)).
Proof.
  intros Hl ???. unfold felems. cbn [fs_len fs_loc fs_off].
  destruct (Z.leb_spec n 0).
  - replace n with 0 by lia. done.
  - rewrite Hl. cbn [mbind option_bind]. destruct (Z.leb_spec 0 lo), (Z.leb_spec (lo + n) (Z.of_nat (length a))); try lia. done.
Qed.

Lemma insert_mid {A} (l1 l2 : list A) x y i : i = length l1 -> <[i := y]> (l1 ++ x :: l2) = l1 ++ y :: l2.
Proof. intros ->. by rewrite insert_app_r_alt, Nat.sub_diag by lia. Qed.

Lemma mem_ext a b : m_f a = m_f b -> m_tr a = m_tr b -> m_ta a = m_ta b -> m_base a = m_base b -> m_node a = m_node b ->
  m_na a = m_na b -> m_ia a = m_ia b -> m_lsh a = m_lsh b -> m_layer a = m_layer b -> m_la a = m_la b -> m_rng a = m_rng b ->
  m_norm a = m_norm b -> m_npos a = m_npos b -> m_seeds a = m_seeds b -> a = b.
Proof. destruct a, b; cbn. congruence. Qed.

Section Loop.
  Context (E : env) (c layerId : Z) (P N batch : nat) (ty : NodeType) (h : hashers).
  Context (m1 : mem) (b0 : list baseNode) (n0 : list Node) (wl ml vl ta tables T0 : nat) (ws bs : list float64).
  Context (HP : Z.of_nat N * Z.of_nat P < 2 ^ 63) (HB : Z.of_nat N * Z.of_nat batch < 2 ^ 63).
  Context (HT : e_Hash E = DensifiedMinhashFunction -> topK <= Z.of_nat P).
  Context (Hws : length ws = (N * P)%nat) (Hbs : length bs = N).
  Context (Hw : m_f m1 !! wl = Some ws).
  Context (Hm : e_UseAdam E = true -> m_f m1 !! ml = Some (replicate (N * P) fzero)).
  Context (Hv : e_UseAdam E = true -> m_f m1 !! vl = Some (replicate (N * P) fzero)).
  Context (Hb0 : m_base m1 = b0 ++ replicate N (emptyBase c)).
  Context (Hn0 : m_node m1 = n0 ++ map (fun b => mkNode c b ts_nil) (seq (length b0) N)).

  Let size := Z.of_nat (N * P).
  Let cm := if e_UseAdam E then mkFs ml 0 size else fs_nil.
  Let cv := if e_UseAdam E then mkFs vl 0 size else fs_nil.

  Definition ly_at (i : nat) : Lay :=
    mkLay (length b0 + i) (mkTs ta (Z.of_nat batch * Z.of_nat i) (Z.of_nat batch)) (seq (T0 + batch * i) batch)
      (mkFs wl (Z.of_nat P * Z.of_nat i) (Z.of_nat P))
      (if e_UseAdam E then mkFs ml (Z.of_nat P * Z.of_nat i) (Z.of_nat P) else fs_nil)
      (if e_UseAdam E then mkFs vl (Z.of_nat P * Z.of_nat i) (Z.of_nat P) else fs_nil)
      (if e_UseAdam E then mkFs (length (m_f m1) + i) 0 (Z.of_nat P) else fs_nil).
  Definition base_at (i : nat) : baseNode :=
    mkBase c ty (Z.of_nat batch) (Z.of_nat i) (ly_w (ly_at i)) (ly_w (ly_at i)) (ly_mom (ly_at i)) (ly_vel (ly_at i))
      (ly_t (ly_at i)) (nth i bs fzero) fzero fzero fzero (nth i bs fzero).
  Definition node_at (i : nat) : Node := mkNode c (length b0 + i) (ly_train (ly_at i)).

  Definition loop_mem (k : nat) (t : LSH) : mem :=
    upd_f (fun r => r ++ (if e_UseAdam E then replicate k (replicate P fzero) else []))
      (upd_base (fun _ => b0 ++ map base_at (seq 0 k) ++ replicate (N - k) (emptyBase c))
        (upd_node (fun _ => n0 ++ map node_at (seq 0 k) ++ map (fun b => mkNode c b ts_nil) (seq (length b0 + k) (N - k)))
          (upd_lsh (fun r => <[tables := t]> r) m1))).

  Lemma init_step k t : (k < N)%nat -> (tables < length (m_lsh m1))%nat ->
    refines (init_node E c (Z.of_nat P) layerId ty (Z.of_nat batch) h tables (mkFs wl 0 size) bs cm cv ta
               (Z.of_nat (N * batch)) (Z.of_nat k, (length n0 + k)%nat) (loop_mem k t))
      (ref_insert E h t (take P (drop (k * P) ws)) (Z.of_nat k))
      (fun t' n m' => n = (length n0 + k)%nat /\ m' = loop_mem (S k) t').
  Proof.
    intros Hk Htab. unfold init_node.
    assert (Z.of_nat P * Z.of_nat k + Z.of_nat P <= Z.of_nat N * Z.of_nat P) by nia.
    assert (Z.of_nat batch * Z.of_nat k + Z.of_nat batch <= Z.of_nat N * Z.of_nat batch) by nia.
    assert (W1 : wrap64 (Z.of_nat P * Z.of_nat k) = Z.of_nat P * Z.of_nat k) by (apply wrap64_small; unfold in_int64, minInt64, maxInt64; lia).
    assert (W2 : wrap64 (Z.of_nat P * Z.of_nat k + Z.of_nat P) = Z.of_nat P * Z.of_nat k + Z.of_nat P) by (apply wrap64_small; unfold in_int64, minInt64, maxInt64; lia).
    assert (W3 : wrap64 (Z.of_nat batch * Z.of_nat k) = Z.of_nat batch * Z.of_nat k) by (apply wrap64_small; unfold in_int64, minInt64, maxInt64; lia).
    assert (W4 : wrap64 (Z.of_nat batch * Z.of_nat k + Z.of_nat batch) = Z.of_nat batch * Z.of_nat k + Z.of_nat batch) by (apply wrap64_small; unfold in_int64, minInt64, maxInt64; lia).
    rewrite W1, W2, W3, W4.
    assert (Hf : forall l a, m_f m1 !! l = Some a -> m_f (loop_mem k t) !! l = Some a).
    { intros l a Hl. unfold loop_mem; cbn. by apply lookup_app_l_Some. }
    assert (Hsub : forall l a, m_f m1 !! l = Some a -> length a = (N * P)%nat ->
      fslice_sub (mkFs l 0 size) (Z.of_nat P * Z.of_nat k) (Z.of_nat P * Z.of_nat k + Z.of_nat P) (loop_mem k t) =
        Ok (mkFs l (Z.of_nat P * Z.of_nat k) (Z.of_nat P), loop_mem k t)).
    { intros l a Hl HL. unfold size. rewrite <- HL.
      rewrite (fslice_sub_Ok _ _ _ _ _ (Hf _ _ Hl)) by nia. do 2 f_equal. f_equal. lia. }
    eapply refines_skip with (a := (ly_mom (ly_at k), ly_vel (ly_at k))) (m1 := loop_mem k t).
    { unfold cm, cv, ly_at. destruct (e_UseAdam E); [|done]. cbn [ly_mom ly_vel].
      erewrite bindM_Ok by (eapply Hsub; [by apply Hm|by rewrite replicate_length]).
      erewrite bindM_Ok by (eapply Hsub; [by apply Hv|by rewrite replicate_length]). done. }
    cbn beta iota. eapply refines_skip; [eapply Hsub; [exact Hw|done]|].
    eapply refines_skip with (a := nth k bs fzero) (m1 := loop_mem k t).
    { unfold lift, sget. destruct (Z.ltb_spec (Z.of_nat k) 0); [lia|].
      rewrite Nat2Z.id.
      destruct (nth_lookup_or_length bs k fzero) as [->|]; [done|lia]. }
    eapply refines_skip with (a := tt) (m1 := loop_mem k t).
    { destruct (Z.leb_spec 0 (Z.of_nat batch * Z.of_nat k)); [|lia].
      destruct (Z.leb_spec (Z.of_nat batch * Z.of_nat k) (Z.of_nat batch * Z.of_nat k + Z.of_nat batch)); [|lia].
      destruct (Z.leb_spec (Z.of_nat batch * Z.of_nat k + Z.of_nat batch) (Z.of_nat (N * batch))); [done|nia]. }
    set (t2 := mkTs ta _ _).
    assert (HN : m_node (loop_mem k t) !! (length n0 + k)%nat = Some (mkNode c (length b0 + k) ts_nil)).
    { unfold loop_mem; cbn. rewrite lookup_app_r by lia. rewrite lookup_app_r by (rewrite map_length, seq_length; lia).
      rewrite map_length, seq_length. replace (length n0 + k - length n0 - k)%nat with 0%nat by lia.
      destruct (N - k)%nat eqn:Ek; [lia|]. done. }
    assert (HBk : m_base (loop_mem k t) !! (length b0 + k)%nat = Some (emptyBase c)).
    { unfold loop_mem; cbn. rewrite lookup_app_r by lia. rewrite lookup_app_r by (rewrite map_length, seq_length; lia).
      rewrite map_length, seq_length. replace (length b0 + k - length b0 - k)%nat with 0%nat by lia.
      destruct (N - k)%nat eqn:Ek; [lia|]. done. }
    eapply refines_skip; [by eapply (Update_own _ _ _ _ _ _ _ _ _ _ _ _ _ _ _ _ _ HN HBk); [|lia]|].
    set (m2 := upd_node _ _).
    assert (Hm2 : m2 = loop_mem (S k) t).
    { unfold m2. apply mem_ext; try (destruct (e_UseAdam E); reflexivity).
      - transitivity (m_f (loop_mem k t) ++ (if e_UseAdam E then [replicate P fzero] else [])).
        + destruct (e_UseAdam E); cbn; rewrite ?Nat2Z.id, ?app_nil_r; done.
        + unfold loop_mem; cbn. destruct (e_UseAdam E); [|by rewrite !app_nil_r].
          rewrite <- app_assoc. f_equal. by rewrite replicate_cons_app.
      - transitivity (<[(length b0 + k)%nat := base_at k]> (m_base (loop_mem k t))).
        + destruct (e_UseAdam E) eqn:EA; unfold base_at, ly_at; rewrite ?EA; cbn; rewrite ?EA, ?app_length, ?replicate_length; reflexivity.
        + unfold loop_mem; cbn [m_base upd_f upd_base]. replace (N - k)%nat with (S (N - S k)) by lia.
          cbn [replicate]. rewrite !(app_assoc b0), insert_mid by (rewrite app_length, map_length, seq_length; lia).
          rewrite seq_S, map_app, <- !app_assoc. done.
      - transitivity (<[(length n0 + k)%nat := node_at k]> (m_node (loop_mem k t))).
        + destruct (e_UseAdam E) eqn:EA; done.
        + unfold loop_mem; cbn [m_node upd_f upd_base upd_node]. replace (N - k)%nat with (S (N - S k)) by lia.
          rewrite (seq_S k 0), map_app. cbn [seq map]. rewrite !(app_assoc n0), insert_mid by (rewrite app_length, map_length, seq_length; lia).
          rewrite <- !app_assoc. rewrite <- Nat.add_succ_r. done. }
    clearbody m2. subst m2. clear HN HBk.
    assert (Fw : felems (loop_mem (S k) t) (mkFs wl (Z.of_nat P * Z.of_nat k) (Z.of_nat P)) = Some (take P (drop (k * P) ws))).
    { rewrite (felems_part _ _ ws) by first [by apply lookup_app_l_Some|nia]. do 2 f_equal; [lia|f_equal; lia]. }
    eapply refines_skip with (a := mkFs wl (Z.of_nat P * Z.of_nat k) (Z.of_nat P)) (m1 := loop_mem (S k) t).
    { unfold node_Weights, get_base.
      erewrite bindM_Ok; [|erewrite bindM_Ok; [apply load_Ok|apply load_Ok]].
      3: { unfold loop_mem; cbn [m_node upd_f upd_base upd_node]. rewrite lookup_app_r by lia.
           rewrite lookup_app_l by (rewrite map_length, seq_length; lia).
           rewrite list_lookup_fmap, lookup_seq_lt by lia. cbn. replace (length n0 + k - length n0)%nat with k by lia. done. }
      2: { unfold loop_mem, node_at; cbn [m_base n_base upd_f upd_base upd_node]. rewrite lookup_app_r by lia.
           rewrite lookup_app_l by (rewrite map_length, seq_length; lia).
           rewrite list_lookup_fmap, lookup_seq_lt by lia. cbn. replace (length b0 + k - length b0)%nat with k by lia. done. }
      done. }
    unfold layer_addToHashTable, ref_insert.
    assert (Tb : m_lsh (loop_mem (S k) t) !! tables = Some t) by (unfold loop_mem; cbn; by apply list_lookup_insert).
    destruct (fspare_total _ _ _ Fw) as [sp Hsp].
    assert (Hh : weight_hashes E h (take P (drop (k * P) ws)) sp = weight_hashes E h (take P (drop (k * P) ws)) []).
    { apply weight_hashes_spare. intros Hd. specialize (HT Hd). rewrite take_length, drop_length. nia. }
    destruct (weight_hashes E h (take P (drop (k * P) ws)) []) as [hashes|q] eqn:Ew; cbn [mbind res_bind].
    2: { rewrite (bindM_Panic _ _ _ q); [done|]. rewrite (bindM_Ok _ _ _ _ _ (fread_felems _ _ _ Fw)), (bindM_Ok _ _ _ _ _ Hsp).
         rewrite bindM_lift, Hh. done. }
    destruct (lsh_HashesToIndex (e_Hash E) t hashes) as [ix|q] eqn:Ei; cbn [mbind res_bind].
    2: { rewrite (bindM_Panic _ _ _ q); [done|]. rewrite (bindM_Ok _ _ _ _ _ (fread_felems _ _ _ Fw)), (bindM_Ok _ _ _ _ _ Hsp).
         rewrite bindM_lift, Hh. rewrite (bindM_Ok _ _ _ _ _ (load_Ok _ _ _ _ Tb)), bindM_lift, Ei. done. }
    destruct (lsh_Add t ix (Z.of_nat k)) as [[r t']|q] eqn:Ea; cbn [mbind res_bind].
    2: { rewrite (bindM_Panic _ _ _ q); [done|]. rewrite (bindM_Ok _ _ _ _ _ (fread_felems _ _ _ Fw)), (bindM_Ok _ _ _ _ _ Hsp).
         rewrite bindM_lift, Hh. rewrite (bindM_Ok _ _ _ _ _ (load_Ok _ _ _ _ Tb)), bindM_lift, Ei, bindM_lift, Ea. done. }
    eapply refines_skip.
    { rewrite (bindM_Ok _ _ _ _ _ (fread_felems _ _ _ Fw)), (bindM_Ok _ _ _ _ _ Hsp).
      rewrite bindM_lift, Hh. rewrite (bindM_Ok _ _ _ _ _ (load_Ok _ _ _ _ Tb)), bindM_lift, Ei, bindM_lift, Ea.
      by eapply store_Ok. }
    apply refines_ret. split; [done|]. apply mem_ext; try reflexivity. unfold loop_mem; cbn. by rewrite list_insert_insert.
  Qed.

  Lemma init_loop : (tables < length (m_lsh m1))%nat -> forall r k t, (k + r = N)%nat ->
    refines (mmap (init_node E c (Z.of_nat P) layerId ty (Z.of_nat batch) h tables (mkFs wl 0 size) bs cm cv ta
               (Z.of_nat (N * batch))) (map (fun i => (Z.of_nat i, (length n0 + i)%nat)) (seq k r)) (loop_mem k t))
      (foldM (fun t i => ref_insert E h t (take P (drop (i * P) ws)) (Z.of_nat i)) t (seq k r))
      (fun t' ns m' => ns = seq (length n0 + k) r /\ m' = loop_mem N t').
  Proof.
    intros Htab. induction r as [|r IH]; intros k t Hk; cbn [seq map mmap foldM].
    - apply refines_ret. split; [done|]. f_equal. lia.
    - eapply refines_bind; [apply init_step; [lia|done]|]. cbn beta. intros t' n m' [-> ->].
      specialize (IH (S k) t' ltac:(lia)).
      eapply refines_bind_inv; [exact IH|]. cbn beta. intros t'' ns m'' [-> ->]. apply refines_ret.
      rewrite Nat.add_succ_r. done.
  Qed.

  Context (Hta : m_ta m1 !! ta = Some (seq T0 (N * batch))).
  Context (Htr : forall i, (i < N * batch)%nat -> m_tr m1 !! (T0 + i)%nat = Some (mkTrain c fzero fzero fzero)).
  Context (Hdis : wl <> ml /\ wl <> vl /\ ml <> vl) (Hlt : (wl < length (m_f m1) /\ (e_UseAdam E = true -> ml < length (m_f m1) /\ vl < length (m_f m1)))%nat).

  Definition view_at (i : nat) : NodeView :=
    let zs := if e_UseAdam E then replicate P fzero else [] in
    mkView ty (Z.of_nat batch) (Z.of_nat i) (take P (drop (i * P) ws)) zs zs zs
      (nth i bs fzero) fzero fzero fzero (nth i bs fzero) (replicate batch (mkSlot fzero fzero fzero)).

  Lemma loop_rep t i : (i < N)%nat -> rep (loop_mem N t) c (length n0 + i) (ly_at i) (view_at i).
  Proof.
    intros Hi.
    assert (Z.of_nat P * Z.of_nat i + Z.of_nat P <= Z.of_nat N * Z.of_nat P) by nia.
    assert (Z.of_nat batch * Z.of_nat i + Z.of_nat batch <= Z.of_nat N * Z.of_nat batch) by nia.
    assert (Hz : forall l, m_f m1 !! l = Some (replicate (N * P) fzero) ->
      felems (loop_mem N t) (mkFs l (Z.of_nat P * Z.of_nat i) (Z.of_nat P)) = Some (replicate P fzero)).
    { intros l Hl. rewrite (felems_part _ _ (replicate (N * P) fzero)) by first [by apply lookup_app_l_Some|rewrite ?replicate_length; nia].
      rewrite drop_replicate, take_replicate. do 2 f_equal. nia. }
    constructor.
    - unfold loop_mem; cbn [m_node upd_f upd_base upd_node]. rewrite lookup_app_r by lia.
      rewrite lookup_app_l by (rewrite map_length, seq_length; lia).
      rewrite list_lookup_fmap, lookup_seq_lt by lia. cbn. by replace (length n0 + i - length n0)%nat with i by lia.
    - unfold loop_mem; cbn [m_base upd_f upd_base upd_node]. unfold ly_at at 1; cbn [ly_base]. rewrite lookup_app_r by lia.
      rewrite lookup_app_l by (rewrite map_length, seq_length; lia).
      rewrite list_lookup_fmap, lookup_seq_lt by lia. cbn. by replace (length b0 + i - length b0)%nat with i by lia.
    - unfold telems, loop_mem, ly_at; cbn [ly_train ly_trs ts_len ts_loc ts_off]. cbn [m_ta upd_f upd_base upd_node upd_lsh].
      destruct (Z.leb_spec (Z.of_nat batch) 0); [by replace batch with 0%nat by lia|].
      rewrite Hta; cbn [mbind option_bind]. rewrite seq_length.
      destruct (Z.leb_spec 0 (Z.of_nat batch * Z.of_nat i)); [|lia].
      destruct (Z.leb_spec (Z.of_nat batch * Z.of_nat i + Z.of_nat batch) (Z.of_nat (N * batch))); [|nia]. cbn [andb].
      f_equal. apply list_eq. intros q. destruct (decide (q < batch)%nat).
      + rewrite lookup_take, lookup_drop, !lookup_seq_lt by nia. f_equal. nia.
      + rewrite !lookup_ge_None_2; [done|rewrite seq_length; lia|rewrite take_length; lia].
    - cbn [ly_trs ly_at v_slots view_at]. apply Forall2_same_length_lookup_2; [by rewrite seq_length, replicate_length|].
      intros q l s Hl Hs. apply lookup_seq in Hl as [-> Hq]. apply lookup_replicate in Hs as [-> _]. cbn.
      rewrite <- Nat.add_assoc. apply Htr. nia.
    - unfold ly_at, view_at; cbn [ly_w v_w]. rewrite (felems_part _ _ ws) by first [by apply lookup_app_l_Some|nia].
      do 2 f_equal; [lia|f_equal; lia].
    - unfold ly_at, view_at; cbn [ly_mom v_mom]. destruct (e_UseAdam E) eqn:EA; [by apply Hz, Hm|done].
    - unfold ly_at, view_at; cbn [ly_vel v_vel]. destruct (e_UseAdam E) eqn:EA; [by apply Hz, Hv|done].
    - unfold ly_at, view_at; cbn [ly_t v_t]. destruct (e_UseAdam E) eqn:EA; [|done].
      rewrite (felems_part _ _ (replicate P fzero)).
      + rewrite drop_0, take_replicate, Nat2Z.id, Nat.min_id. done.
      + unfold loop_mem; cbn. rewrite EA. rewrite lookup_app_r by lia. rewrite lookup_replicate_2 by lia. done.
      + lia.
      + lia.
      + rewrite replicate_length. lia.
  Qed.
  Lemma loop_ly_ok i : ly_ok (ly_at i).
  Proof.
    clear - Hdis Hlt. unfold ly_ok, ly_at; cbn. split; [apply NoDup_seq|]. unfold sdisj.
    destruct (e_UseAdam E); cbn; split_and!; try (by right; left); right; right; left; lia.
  Qed.
  Lemma loop_apart i j : i <> j -> apart (ly_at i) (ly_at j).
  Proof.
    clear - Hdis Hlt. intros Hij. unfold apart. split; [cbn; lia|]. split.
    - cbn. intros l. rewrite !elem_of_seq. nia.
    - assert (HD : forall l, sdisj (mkFs l (Z.of_nat P * Z.of_nat i) (Z.of_nat P)) (mkFs l (Z.of_nat P * Z.of_nat j) (Z.of_nat P))).
      { intros l. unfold sdisj; cbn. do 3 right. nia. }
      intros s s' Hs Hs'. unfold ly_slices, ly_at in Hs, Hs'; cbn in Hs, Hs'.
      destruct (e_UseAdam E); rewrite !elem_of_cons, elem_of_nil in Hs; rewrite !elem_of_cons, elem_of_nil in Hs';
      destruct_or!; subst; try done; try apply HD; unfold sdisj; cbn; try lia.
  Qed.
End Loop.

Lemma indexed_lookup {A} (xs : list A) i j x :
  indexed xs !! i = Some (j, x) <-> j = Z.of_nat i /\ xs !! i = Some x.
Proof.
  unfold indexed. rewrite lookup_zip_with_Some. split.
  - intros (a & b & [= <- <-] & H1 & H2). apply lookup_seqZ in H1. split; [lia|done].
  - intros [-> H]. exists (Z.of_nat i), x. split; [done|]. split; [|done].
    apply lookup_seqZ. apply lookup_lt_Some in H. lia.
Qed.

Lemma indexed_length {A} (xs : list A) : length (indexed xs) = length xs.
Proof. unfold indexed. rewrite zip_with_length, seqZ_length. lia. Qed.
Lemma indexed_seq N0 n : indexed (seq N0 n) = map (fun i => (Z.of_nat i, (N0 + i)%nat)) (seq 0 n).
Proof.
  apply list_eq. intros i. rewrite list_lookup_fmap. destruct (decide (i < n)%nat).
  - rewrite lookup_seq_lt by lia. cbn. apply indexed_lookup. by rewrite lookup_seq_lt by lia.
  - rewrite !lookup_ge_None_2; [done|rewrite seq_length; lia|rewrite indexed_length, seq_length; lia].
Qed.

Lemma foldM_ext {S A} (f g : S -> A -> res S) s xs : (forall s x, x ∈ xs -> f s x = g s x) -> foldM f s xs = foldM g s xs.
Proof.
  revert s. induction xs as [|x xs IH]; intros s H; cbn [foldM]; [done|].
  rewrite H by left. destruct (g s x); cbn; [|done]. apply IH. intros. apply H. by right.
Qed.

Lemma take_drop_map_seq {A} (f : nat -> A) pos a b n : (a + b <= n)%nat ->
  take b (drop a (map f (seq pos n))) = map f (seq (pos + a) b).
Proof.
  intros. apply list_eq. intros i. destruct (decide (i < b)%nat).
  - rewrite lookup_take, lookup_drop, !list_lookup_fmap, !lookup_seq_lt by lia. cbn. f_equal. f_equal. lia.
  - rewrite !lookup_ge_None_2; [done|rewrite map_length, seq_length; lia|rewrite take_length; lia].
Qed.

Lemma refines_with_rng {A} (f : rng -> res (A * rng)) m :
  refines (with_rng f m) (f (m_rng m)) (fun b a m' => a = b.1 /\ m' = upd_rng b.2 m).
Proof. unfold with_rng. destruct (f (m_rng m)) as [[a g]|]; cbn; eauto. Qed.

Lemma new_hashers_Ok E h k l prev m :
  refines (new_hashers E h k l prev m) (make_hashers E h (e_mh E (m_seeds m)) k l prev (m_rng m))
    (fun b a m' => a = b.1 /\ m' = upd_seeds (S (m_seeds m)) (upd_rng b.2 m)).
Proof. unfold new_hashers. destruct (make_hashers _ _ _ _ _ _ _) as [[a g]|]; cbn; eauto. Qed.

Lemma init_params_Ok E N P m : e_LoadWeight E = false -> Z.of_nat N * Z.of_nat P < 2 ^ 63 ->
  let size := Z.of_nat (N * P) in
  let zs := replicate (N * P) fzero in
  init_params E (Z.of_nat N) (Z.of_nat P) fs_nil [] fs_nil fs_nil m =
    Ok ((mkFs (length (m_f m)) 0 size, map (norm_draw (m_norm m)) (seq (m_npos m + N * P) N),
         if e_UseAdam E then mkFs (S (length (m_f m))) 0 size else fs_nil,
         if e_UseAdam E then mkFs (S (S (length (m_f m)))) 0 size else fs_nil),
        upd_f (fun r => r ++ map (norm_draw (m_norm m)) (seq (m_npos m) (N * P)) :: (if e_UseAdam E then [zs; zs] else []))
          (upd_npos (m_npos m + N * P + N) m)).
Proof.
  intros HL HP size zs. unfold init_params. rewrite HL.
  assert (W : wrap64 (Z.of_nat N * Z.of_nat P) = size).
  { rewrite wrap64_small; [unfold size; lia|]. unfold in_int64, minInt64, maxInt64. lia. }
  rewrite W. rewrite (bindM_Ok _ _ _ _ _ (normals_Ok size m ltac:(lia))). assert (W2 : Z.to_nat size = (N * P)%nat) by lia. rewrite W2.
  erewrite bindM_Ok by reflexivity. erewrite bindM_Ok by (apply normals_Ok; lia). rewrite Nat2Z.id.
  cbn [m_norm m_npos upd_f upd_npos].
  assert (Z0 : make_slice fzero size = Ok zs).
  { unfold make_slice. destruct (Z.ltb_spec size 0); [lia|]. unfold size, zs. by rewrite Nat2Z.id. }
  destruct (e_UseAdam E).
  - erewrite bindM_Ok.
    2: { erewrite bindM_Ok. 2: { unfold make_f. rewrite bindM_lift, Z0. erewrite bindM_Ok by reflexivity. reflexivity. }
         erewrite bindM_Ok. 2: { unfold make_f. rewrite bindM_lift, Z0. erewrite bindM_Ok by reflexivity. reflexivity. }
         reflexivity. }
    cbn beta iota. cbn [m_f upd_f upd_npos]. rewrite !app_length. cbn [length].
    unfold mret, M_ret. f_equal. f_equal.
    + f_equal; [f_equal|]; f_equal; lia.
    + apply mem_ext; try reflexivity. cbn. by rewrite <- !app_assoc.
  - erewrite bindM_Ok by reflexivity. cbn beta iota. unfold mret, M_ret. done.
Qed.

(** The objects of [ll] did not exist in [m]. *)
Record fresh_lay (m : mem) (ll : LayerLay) : Prop := mkFresh {
  fr_ptr : (length (m_layer m) <= ll_ptr ll)%nat;
  fr_rand : (length (m_ia m) <= ll_rand ll)%nat;
  fr_tables : (length (m_lsh m) <= ll_tables ll)%nat;
  fr_norm : forall a, ll_norm ll = Some a -> (length (m_f m) <= a)%nat;
  fr_base : forall ly, ly ∈ ll_lys ll -> (length (m_base m) <= ly_base ly)%nat;
  fr_trs : forall ly q, ly ∈ ll_lys ll -> q ∈ ly_trs ly -> (length (m_tr m) <= q)%nat;
  fr_slices : forall ly s, ly ∈ ll_lys ll -> s ∈ ly_slices ly -> fs_len s <= 0 \/ (length (m_f m) <= fs_loc s)%nat
}.
Definition new_layer_post (m : mem) (c : Z) (N P : nat) (r : LayerView * rng) (lp : nat) (m' : mem) : Prop :=
  exists ll, ll_ptr ll = lp /\ extends m m' /\ fresh_lay m ll /\ layer_rep m' c ll r.1 /\ lays_ok [ll] /\
    (forall ly, ly ∈ ll_lys ll -> fs_len (ly_w ly) = Z.of_nat P) /\
    m_rng m' = r.2 /\ m_norm m' = m_norm m /\ m_npos m' = (m_npos m + N * P + N)%nat /\ m_seeds m' = S (m_seeds m).

Section NewLayer.
  Context (E : env) (c layerId : Z) (P N batch : nat) (ty : NodeType) (k l rp : Z) (sp : float64) (m : mem).
  Context (HL : e_LoadWeight E = false).
  Context (HP : Z.of_nat N * Z.of_nat P < 2 ^ 63) (HB : Z.of_nat N * Z.of_nat batch < 2 ^ 63).
  Context (HT : e_Hash E = DensifiedMinhashFunction -> topK <= Z.of_nat P).

  Lemma layer_New_ref :
    refines (layer_New E c (Z.of_nat N) (Z.of_nat P) layerId ty (Z.of_nat batch) k l rp sp fs_nil [] fs_nil fs_nil m)
      (ref_layer_new E (m_norm m) (m_npos m) N P ty batch k l rp (m_rng m) (m_seeds m))
      (new_layer_post m c N P).
  Proof.
    unfold layer_New, ref_layer_new.
    eapply refines_skip with (a := replicate N 0) (m1 := m).
    { unfold lift, make_slice. destruct (Z.ltb_spec (Z.of_nat N) 0); [lia|]. by rewrite Nat2Z.id. }
    rewrite replicate_length. destruct (shuffle (seqZ 0 (Z.of_nat N)) (m_rng m)) as [rand g1] eqn:Es.
    eapply refines_skip with (a := rand) (m1 := upd_rng g1 m); [unfold with_rng; by rewrite Es|].
    eapply refines_skip; [reflexivity|].
    eapply refines_bind; [apply refines_with_rng|]. cbn beta. intros [t g2] a' m' [-> ->]. cbn [fst snd].
    eapply refines_skip; [reflexivity|].
    eapply refines_bind; [apply new_hashers_Ok|]. cbn beta. intros [h g] a' m' [-> ->]. cbn [fst snd].
    match goal with |- refines (_ ?x) _ _ => set (ms := x) end.
    assert (Sf : m_f ms = m_f m) by reflexivity. assert (Str : m_tr ms = m_tr m) by reflexivity.
    assert (Sta : m_ta ms = m_ta m) by reflexivity. assert (Sb : m_base ms = m_base m) by reflexivity.
    assert (Sn : m_node ms = m_node m) by reflexivity. assert (Sna : m_na ms = m_na m) by reflexivity.
    assert (Sia : m_ia ms = m_ia m ++ [rand]) by reflexivity. assert (Sl : m_lsh ms = m_lsh m ++ [t]) by reflexivity.
    assert (Sly : m_layer ms = m_layer m) by reflexivity. assert (Sla : m_la ms = m_la m) by reflexivity.
    assert (Sg : m_rng ms = g) by reflexivity. assert (Sno : m_norm ms = m_norm m) by reflexivity.
    assert (Snp : m_npos ms = m_npos m) by reflexivity. assert (Sse : m_seeds ms = S (m_seeds m)) by reflexivity.
    cbn [m_ia m_lsh upd_ia upd_rng upd_lsh]. clearbody ms.
    eapply refines_skip; [by apply init_params_Ok|]. cbn beta iota.
    rewrite Sno, Snp, Sf.
    set (ws := map _ (seq (m_npos m) (N * P))). set (bs := map _ (seq (m_npos m + N * P) N)).
    set (zs := replicate (N * P) fzero).
    eapply refines_skip with (a := replicate (N * batch) tt).
    { unfold lift, make_slice. rewrite wrap64_small by (unfold in_int64, minInt64, maxInt64; lia).
      destruct (Z.ltb_spec (Z.of_nat N * Z.of_nat batch) 0); [lia|]. replace (Z.to_nat (Z.of_nat N * Z.of_nat batch)) with (N * batch)%nat by lia. done. }
    eapply refines_skip; [apply mmap_newtrain|]. rewrite replicate_length.
    eapply refines_skip; [reflexivity|].
    eapply refines_skip; [apply mmap_empty|]. rewrite replicate_length.
    rewrite indexed_seq.
    match goal with |- refines (_ ?x) _ _ => set (m1 := x) end.
    match goal with |- context [seq (length (m_tr ?x)) _] => change (m_tr x) with (m_tr ms) end. rewrite Str.
    match goal with |- context [(length (m_node ?x) + _)%nat] => change (m_node x) with (m_node ms) end. rewrite Sn.
    match goal with |- context [length (m_ta ?x)] => change (m_ta x) with (m_ta ms) end. rewrite Sta.
    assert (Tf : m_f m1 = m_f m ++ ws :: (if e_UseAdam E then [zs; zs] else [])) by (rewrite <- Sf; reflexivity).
    assert (Ttr : m_tr m1 = m_tr m ++ replicate (N * batch) (mkTrain c fzero fzero fzero)) by (rewrite <- Str; reflexivity).
    assert (Tta : m_ta m1 = m_ta m ++ [seq (length (m_tr m)) (N * batch)]) by (rewrite <- Sta, <- Str; reflexivity).
    assert (Tb : m_base m1 = m_base m ++ replicate N (emptyBase c)) by (rewrite <- Sb; reflexivity).
    assert (Tn : m_node m1 = m_node m ++ map (fun b => mkNode c b ts_nil) (seq (length (m_base m)) N)) by (rewrite <- Sn, <- Sb; reflexivity).
    assert (Tna : m_na m1 = m_na m) by (rewrite <- Sna; reflexivity).
    assert (Tia : m_ia m1 = m_ia m ++ [rand]) by (rewrite <- Sia; reflexivity).
    assert (Tl : m_lsh m1 = m_lsh m ++ [t]) by (rewrite <- Sl; reflexivity).
    assert (Tly : m_layer m1 = m_layer m) by (rewrite <- Sly; reflexivity).
    assert (Tla : m_la m1 = m_la m) by (rewrite <- Sla; reflexivity).
    assert (Tg : m_rng m1 = g) by (rewrite <- Sg; reflexivity).
    assert (Tno : m_norm m1 = m_norm m) by (rewrite <- Sno; reflexivity).
    assert (Tnp : m_npos m1 = (m_npos m + N * P + N)%nat) by reflexivity.
    assert (Tse : m_seeds m1 = S (m_seeds m)) by (rewrite <- Sse; reflexivity).
    clearbody m1. clear dependent ms.
    set (wl := length (m_f m)) in *. rewrite seq_length.
    set (LM := loop_mem E c P N batch ty m1 (m_base m) (m_node m) wl (S wl) (S (S wl)) (length (m_ta m)) (length (m_lsh m)) (length (m_tr m)) bs).
    assert (H0 : m1 = LM 0%nat t).
    { unfold LM, loop_mem. apply mem_ext; try reflexivity.
      - cbn. destruct (e_UseAdam E); by rewrite app_nil_r.
      - cbn. rewrite Tb, Nat.sub_0_r. done.
      - cbn. rewrite Tn, Nat.sub_0_r, Nat.add_0_r. done.
      - cbn. symmetry. apply list_insert_id. rewrite Tl, lookup_app_r, Nat.sub_diag by lia. done. }
    rewrite H0 at 1. clear H0.
    assert (Hwl : m_f m1 !! wl = Some ws) by (rewrite Tf, lookup_app_r, Nat.sub_diag by (unfold wl; lia); done).
    assert (Hml : e_UseAdam E = true -> m_f m1 !! S wl = Some zs).
    { intros EA. rewrite Tf, EA, lookup_app_r by (unfold wl; lia). by replace (S wl - length (m_f m))%nat with 1%nat by (unfold wl; lia). }
    assert (Hvl : e_UseAdam E = true -> m_f m1 !! S (S wl) = Some zs).
    { intros EA. rewrite Tf, EA, lookup_app_r by (unfold wl; lia). by replace (S (S wl) - length (m_f m))%nat with 2%nat by (unfold wl; lia). }
    assert (Lws : length ws = (N * P)%nat) by (unfold ws; by rewrite map_length, seq_length).
    assert (Lbs : length bs = N) by (unfold bs; by rewrite map_length, seq_length).
    assert (Ltab : (length (m_lsh m) < length (m_lsh m1))%nat) by (rewrite Tl, app_length; cbn; lia).
    eapply refines_bind with (Q := fun t' ns m' => ns = seq (length (m_node m)) N /\ m' = LM N t').
    { rewrite (foldM_ext _ (fun t i => ref_insert E h t (take P (drop (i * P) ws)) (Z.of_nat i))).
      2: { intros s x Hx. apply elem_of_seq in Hx. unfold ws. rewrite take_drop_map_seq by nia. done. }
      eapply refines_impl; [eapply init_loop; try done|].
      cbn beta. intros t' ns m' [-> ->]. rewrite Nat.add_0_r. done. }
    cbn beta. intros t' ns m' [-> ->].
    eapply refines_skip; [reflexivity|].
    set (m2 := LM N t').
    assert (Uf : m_f m2 = m_f m ++ (ws :: (if e_UseAdam E then [zs; zs] else [])) ++ (if e_UseAdam E then replicate N (replicate P fzero) else [])).
    { rewrite app_assoc, <- Tf. done. }
    assert (Ub : m_base m `prefix_of` m_base m2) by by eexists.
    assert (Un : m_node m `prefix_of` m_node m2) by by eexists.
    set (nf := if is_softmax ty then Some (length (m_f m2)) else None).
    set (m3 := if is_softmax ty then upd_f (fun r => r ++ [replicate batch fzero]) (upd_na (fun r => r ++ [seq (length (m_node m)) N]) m2)
                                else upd_na (fun r => r ++ [seq (length (m_node m)) N]) m2).
    eapply refines_skip with (a := nf) (m1 := m3).
    { unfold nf, m3. destruct (is_softmax ty); [|done]. unfold make_f.
      erewrite bindM_Ok; [|rewrite bindM_lift; unfold make_slice; destruct (Z.ltb_spec (Z.of_nat batch) 0); [lia|]; erewrite bindM_Ok by reflexivity; reflexivity].
      rewrite Nat2Z.id. done. }
    assert (X23 : extends m2 m3).
    { unfold extends, m3. destruct (is_softmax ty); cbn; split_and!; try done; by apply prefix_snoc. }
    assert (F3 : m_na m3 = m_na m2 ++ [seq (length (m_node m)) N] /\ m_ia m3 = m_ia m2 /\ m_lsh m3 = m_lsh m2 /\ m_layer m3 = m_layer m2 /\
      m_la m3 = m_la m2 /\ m_rng m3 = m_rng m2 /\ m_norm m3 = m_norm m2 /\ m_npos m3 = m_npos m2 /\ m_seeds m3 = m_seeds m2)
      by (unfold m3; destruct (is_softmax ty); done).
    destruct F3 as (F3na & F3ia & F3l & F3ly & F3la & F3g & F3no & F3np & F3se).
    eexists _, _. split; [reflexivity|].
    set (m4' := upd_layer _ m3).
    assert (X34 : extends m3 m4') by (unfold extends, m4'; cbn; split_and!; try done; by eexists).
    exists (mkLL (length (m_layer m3)) (length (m_na m2)) (length (m_ia m)) nf (length (m_lsh m)) (seq (length (m_node m)) N)
        (map (ly_at E P batch m1 (m_base m) wl (S wl) (S (S wl)) (length (m_ta m)) (length (m_tr m))) (seq 0 N))).
    cbn [fst snd]. split; [done|].
    assert (X02 : extends m m2).
    { unfold extends. split_and!; try done.
      - rewrite Uf. by eexists.
      - change (m_tr m2) with (m_tr m1). rewrite Ttr. by eexists.
      - change (m_ta m2) with (m_ta m1). rewrite Tta. by eexists.
      - change (m_na m2) with (m_na m1). by rewrite Tna.
      - change (m_ia m2) with (m_ia m1). rewrite Tia. by eexists.
      - change (m_lsh m2) with (<[length (m_lsh m) := t']> (m_lsh m1)). apply prefix_insert; [|lia]. rewrite Tl. by eexists.
      - change (m_layer m2) with (m_layer m1). by rewrite Tly.
      - change (m_la m2) with (m_la m1). by rewrite Tla. }
    split; [by do 2 (eapply extends_trans; [eassumption|])|].
    assert (Hd : wl <> S wl /\ wl <> S (S wl) /\ S wl <> S (S wl)) by lia.
    assert (Hlt : (wl < length (m_f m1) /\ (e_UseAdam E = true -> S wl < length (m_f m1) /\ S (S wl) < length (m_f m1)))%nat).
    { rewrite Tf, app_length. cbn. split; [unfold wl; lia|]. intros ->. cbn. unfold wl; lia. }
    split; [|split; [|split; [|split]]]. 
    - constructor; cbn [ll_ptr ll_rand ll_tables ll_norm ll_lys].
      + rewrite F3ly. change (m_layer m2) with (m_layer m1). by rewrite Tly.
      + done.
      + done.
      + unfold nf. destruct (is_softmax ty); [|done]. intros a Ha. apply (inj Some) in Ha. rewrite <- Ha, Uf, app_length. lia.
      + intros ly (i & -> & _)%elem_of_list_fmap. cbn. lia.
      + intros ly q (i & -> & _)%elem_of_list_fmap. cbn. rewrite elem_of_seq. lia.
      + intros ly s (i & -> & _)%elem_of_list_fmap. unfold ly_slices, ly_at; cbn. rewrite Tf, !app_length.
        rewrite !elem_of_cons, elem_of_nil. unfold wl. destruct (e_UseAdam E); intros Hs; destruct_or! Hs; try done; rewrite Hs; cbn; lia.
    - constructor; cbn [ll_ptr ll_rand ll_tables ll_norm ll_lys ll_na ll_ns].
      + unfold m4'; cbn. rewrite lookup_app_r, Nat.sub_diag by lia. done.
      + change (m_na m4') with (m_na m3). rewrite F3na, lookup_app_r, Nat.sub_diag by lia. done.
      + change (m_ia m4') with (m_ia m3). rewrite F3ia. change (m_ia m2) with (m_ia m1). rewrite Tia, lookup_app_r, Nat.sub_diag by lia. done.
      + change (m_f m4') with (m_f m3). unfold nf, m3. destruct (is_softmax ty); [|done].
        change (m_f (upd_f _ (upd_na ?a m2))) with (m_f m2 ++ [replicate batch fzero]).
        rewrite lookup_app_r, Nat.sub_diag by lia. done.
      + change (m_lsh m4') with (m_lsh m3). rewrite F3l. change (m_lsh m2) with (<[length (m_lsh m) := t']> (m_lsh m1)).
        by apply list_lookup_insert.
      + cbn [lv_nodes]. constructor; [by rewrite map_length, !seq_length|unfold new_nodes; by rewrite map_length, !seq_length|].
        intros j n ly v Hn Hly Hv. apply lookup_seq in Hn as [-> Hj].
        apply list_lookup_fmap_inv in Hly as (i & -> & Hi). apply lookup_seq in Hi as [-> _].
        apply list_lookup_fmap_inv in Hv as (i & -> & Hi). apply lookup_seq in Hi as [-> _]. cbn [Nat.add].
        eapply extends_rep; [exact X34|]. eapply extends_rep; [exact X23|].
        replace (new_node (e_UseAdam E) (m_norm m) (m_npos m) N P ty batch j) with (view_at E P batch ty ws bs j).
        * eapply loop_rep; try done.
          -- rewrite Tta, lookup_app_r, Nat.sub_diag by lia. done.
          -- intros i Hi. rewrite Ttr, lookup_app_r by lia. rewrite lookup_replicate_2 by lia. done.
        * unfold view_at, new_node. unfold ws, bs. rewrite take_drop_map_seq by nia.
          assert (Hb : nth j (map (norm_draw (m_norm m)) (seq (m_npos m + N * P) N)) fzero = norm_draw (m_norm m) (m_npos m + N * P + j)).
          { apply nth_lookup_Some. rewrite list_lookup_fmap, lookup_seq_lt by lia. done. }
          rewrite Hb. done.
    - assert (Hlys : forall i ly, map (ly_at E P batch m1 (m_base m) wl (S wl) (S (S wl)) (length (m_ta m)) (length (m_tr m))) (seq 0 N) !! i = Some ly ->
        ly = ly_at E P batch m1 (m_base m) wl (S wl) (S (S wl)) (length (m_ta m)) (length (m_tr m)) i).
      { intros i ly Hi. apply list_lookup_fmap_inv in Hi as (q & -> & Hi). by apply lookup_seq in Hi as [-> _]. }
      constructor.
      + cbn. apply NoDup_singleton.
      + cbn. apply NoDup_singleton.
      + cbn. apply NoDup_singleton.
      + intros j j' ll ll' a H1%list_lookup_singleton_Some H2%list_lookup_singleton_Some. naive_solver.
      + intros j ll H1%list_lookup_singleton_Some. destruct H1 as [_ <-]. cbn [ll_lys]. apply Forall_forall.
        intros ly (i & -> & _)%elem_of_list_fmap. by apply loop_ly_ok.
      + intros j j' ll ll' i i' ly ly' H1%list_lookup_singleton_Some H2%list_lookup_singleton_Some.
        destruct H1 as [-> <-], H2 as [-> <-]. cbn [ll_lys]. intros ->%Hlys ->%Hlys ?.
        eapply loop_apart; try done. congruence.
      + intros j j' ll ll' a ly s H1%list_lookup_singleton_Some H2%list_lookup_singleton_Some.
        destruct H1 as [-> <-], H2 as [-> <-]. cbn [ll_lys ll_norm]. unfold nf. destruct (is_softmax ty); [|done]. intros Ha. apply (inj Some) in Ha.
        intros (i & -> & Hi)%elem_of_list_fmap Hs. rewrite <- Ha. apply elem_of_seq in Hi. rewrite Uf, app_assoc, <- Tf, app_length.
        revert Hs. unfold ly_slices, ly_at; cbn. rewrite !elem_of_cons, elem_of_nil.
        destruct (e_UseAdam E); intros Hs; destruct_or! Hs; try done; rewrite Hs; cbn; rewrite ?replicate_length; lia.
    - cbn [ll_lys]. intros ly (i & -> & _)%elem_of_list_fmap. done.
    - unfold m4'; cbn. rewrite F3g, F3no, F3np, F3se. unfold m2, LM, loop_mem. cbn. rewrite Tg, Tno, Tnp, Tse. done.
  Qed.
End NewLayer.

Lemma extends_layer m m' c ll lv : extends m m' -> layer_rep m c ll lv -> layer_rep m' c ll lv.
Proof.
  intros X [H1 H2 H3 H4 H5 H6]. pose proof X as (Hf & Htr & Hta & Hb & Hn & Hna & Hia & Hl & Hly & Hla).
  constructor; try (by eapply prefix_lookup).
  - destruct (ll_norm ll); [by eapply prefix_lookup|done].
  - destruct H6 as [L1 L2 Hat]. constructor; [done..|]. intros. eapply extends_rep; [done|]. by eapply Hat.
Qed.

(** The objects of a layer exist. *)
Lemma rep_bound m c n ly v : rep m c n ly v -> (ly_base ly < length (m_base m))%nat /\
  (forall q, q ∈ ly_trs ly -> (q < length (m_tr m))%nat) /\
  (forall s, s ∈ ly_slices ly -> fs_len s <= 0 \/ (fs_loc s < length (m_f m))%nat).
Proof.
  intros R. split_and!.
  - eapply lookup_lt_Some, R.
  - intros q Hq. apply elem_of_list_lookup in Hq as [i Hi].
    destruct (Forall2_lookup_l _ _ _ _ _ (rep_slots _ _ _ _ _ R) Hi) as (s & _ & H). by eapply lookup_lt_Some.
  - assert (HF : forall s xs, felems m s = Some xs -> fs_len s <= 0 \/ (fs_loc s < length (m_f m))%nat).
    { intros s xs. unfold felems. destruct (Z.leb_spec (fs_len s) 0); [by left|].
      destruct (m_f m !! fs_loc s) eqn:El; cbn [mbind option_bind]; [|done]. intros _. right. by eapply lookup_lt_Some. }
    intros s. unfold ly_slices. rewrite !elem_of_cons, elem_of_nil. intros Hs.
    destruct_or! Hs; try done; subst s; eapply HF; apply R.
Qed.
Lemma layer_lys m c ll lv ly : layer_rep m c ll lv -> ly ∈ ll_lys ll -> exists n v, rep m c n ly v.
Proof.
  intros L [i Hi]%elem_of_list_lookup. destruct (lr_nodes _ _ _ _ L) as [L1 L2 Hat].
  pose proof (lookup_lt_Some _ _ _ Hi).
  destruct (lookup_lt_is_Some_2 (ll_ns ll) i) as [n Hn]; [lia|]. destruct (lookup_lt_is_Some_2 (lv_nodes lv) i) as [v Hv]; [lia|].
  exists n, v. by eapply Hat.
Qed.

Lemma fresh_apart m c ll lv ll' ly ly' : layer_rep m c ll lv -> fresh_lay m ll' -> ly ∈ ll_lys ll -> ly' ∈ ll_lys ll' ->
  apart ly ly' /\ apart ly' ly.
Proof.
  intros L F Hi Hi'. destruct (layer_lys _ _ _ _ _ L Hi) as (n & v & R). apply rep_bound in R as (B1 & B2 & B3).
  pose proof (fr_base _ _ F _ Hi'). pose proof (fun q => fr_trs _ _ F _ q Hi'). pose proof (fun s => fr_slices _ _ F _ s Hi').
  unfold apart, sdisj. split; (split; [lia|]).
  - split; [intros q H3 H4; pose proof (B2 _ H3); specialize (H0 _ H4); lia|].
    intros s s' H3 H4. specialize (B3 _ H3). specialize (H1 _ H4). lia.
  - split; [intros q H3 H4; pose proof (B2 _ H4); specialize (H0 _ H3); lia|].
    intros s s' H3 H4. specialize (B3 _ H4). specialize (H1 _ H3). lia.
Qed.

Lemma snoc_cases {A} (xs : list A) x i y : (xs ++ [x]) !! i = Some y -> xs !! i = Some y \/ (i = length xs /\ y = x).
Proof. intros [H|[? [? ?]%list_lookup_singleton_Some]]%lookup_app_Some; [by left|]. right. split; [lia|done]. Qed.

Lemma lays_snoc m c lls lvs ll : length lls = length lvs ->
  (forall j ll lv, lls !! j = Some ll -> lvs !! j = Some lv -> layer_rep m c ll lv) ->
  lays_ok lls -> fresh_lay m ll -> lays_ok [ll] -> lays_ok (lls ++ [ll]).
Proof.
  intros HL Hat O F O1.
  assert (Hex : forall j ll, lls !! j = Some ll -> exists lv, layer_rep m c ll lv).
  { intros j ll' Hj. destruct (lookup_lt_is_Some_2 lvs j) as [lv Hv]; [apply lookup_lt_Some in Hj; lia|]. eauto. }
  assert (Hel : forall ll', ll' ∈ lls -> exists lv, layer_rep m c ll' lv) by (intros ll' [j Hj]%elem_of_list_lookup; eauto).
  assert (HN : forall a, ll_norm ll = Some a -> (length (m_f m) <= a)%nat) by apply F.
  constructor.
  - rewrite map_app. apply NoDup_app. split; [apply O|]. split; [|apply NoDup_singleton].
    intros q (ll' & -> & H)%elem_of_list_fmap Hq%elem_of_list_singleton. destruct (Hel _ H) as [lv L].
    pose proof (lookup_lt_Some _ _ _ (lr_layer _ _ _ _ L)). pose proof (fr_ptr _ _ F). lia.
  - rewrite map_app. apply NoDup_app. split; [apply O|]. split; [|apply NoDup_singleton].
    intros q (ll' & -> & H)%elem_of_list_fmap Hq%elem_of_list_singleton. destruct (Hel _ H) as [lv L].
    pose proof (lookup_lt_Some _ _ _ (lr_rand _ _ _ _ L)). pose proof (fr_rand _ _ F). lia.
  - rewrite map_app. apply NoDup_app. split; [apply O|]. split; [|apply NoDup_singleton].
    intros q (ll' & -> & H)%elem_of_list_fmap Hq%elem_of_list_singleton. destruct (Hel _ H) as [lv L].
    pose proof (lookup_lt_Some _ _ _ (lr_tables _ _ _ _ L)). pose proof (fr_tables _ _ F). lia.
  - intros j j' l1 l2 a [H1|[-> ->]]%snoc_cases [H2|[-> ->]]%snoc_cases N1 N2.
    + by eapply (lo_norm _ O).
    + destruct (Hex _ _ H1) as [lv L]. pose proof (lr_norm _ _ _ _ L) as Hn. rewrite N1 in Hn. apply lookup_lt_Some in Hn.
      specialize (HN _ N2). lia.
    + destruct (Hex _ _ H2) as [lv L]. pose proof (lr_norm _ _ _ _ L) as Hn. rewrite N2 in Hn. apply lookup_lt_Some in Hn.
      specialize (HN _ N1). lia.
    + done.
  - intros j l1 [H1|[-> ->]]%snoc_cases; [by eapply (lo_ok _ O)|]. by eapply (lo_ok _ O1 0%nat).
  - intros j j' l1 l2 i i' ly ly' [H1|[-> ->]]%snoc_cases [H2|[-> ->]]%snoc_cases I1 I2 Hne.
    + by eapply (lo_apart _ O j j').
    + destruct (Hex _ _ H1) as [lv L]. refine (proj1 (fresh_apart _ _ _ _ _ _ _ L F _ _)); by eapply elem_of_list_lookup_2.
    + destruct (Hex _ _ H2) as [lv L]. refine (proj2 (fresh_apart _ _ _ _ _ _ _ L F _ _)); by eapply elem_of_list_lookup_2.
    + eapply (lo_apart _ O1 0%nat 0%nat ll ll i i'); try done. congruence.
  - intros j j' l1 l2 a ly s [H1|[-> ->]]%snoc_cases [H2|[-> ->]]%snoc_cases N1 Hin Hs.
    + by eapply (lo_slices _ O j j').
    + destruct (fr_slices _ _ F _ _ Hin Hs) as [|Hge]; [by left|]. right.
      destruct (Hex _ _ H1) as [lv L]. pose proof (lr_norm _ _ _ _ L) as Hn. rewrite N1 in Hn. apply lookup_lt_Some in Hn. lia.
    + destruct (Hex _ _ H2) as [lv L]. destruct (layer_lys _ _ _ _ _ L Hin) as (n & v & R). apply rep_bound in R as (_ & _ & B3).
      destruct (B3 _ Hs); [by left|]. right. specialize (HN _ N1). lia.
    + by eapply (lo_slices _ O1 0%nat 0%nat).
Qed.

Lemma fresh_before m m' ll : extends m m' -> fresh_lay m' ll -> fresh_lay m ll.
Proof.
  intros (Hf & Htr & _ & Hb & _ & _ & Hia & Hl & Hly & _) [F1 F2 F3 F4 F5 F6 F7].
  apply prefix_length in Hf, Htr, Hb, Hia, Hl, Hly. constructor; [lia..| | | |].
  - intros a Ha. specialize (F4 _ Ha). lia.
  - intros ly Hy. specialize (F5 _ Hy). lia.
  - intros ly q Hy Hq. specialize (F6 _ _ Hy Hq). lia.
  - intros ly q Hy Hq. specialize (F7 _ _ Hy Hq). lia.
Qed.

Lemma lays_nil : lays_ok [].
Proof. constructor; try apply NoDup_nil_2; intros; by rewrite lookup_nil in *. Qed.

Lemma refines_fold_seq {S S'} (f : S -> Z -> M S) (g : S' -> Z -> res S') (Q : Z -> S' -> S -> mem -> Prop) hi :
  (forall i b a m, 0 <= i < hi -> Q i b a m -> refines (f a i m) (g b i) (Q (i + 1))) ->
  forall r i b a m, i + Z.of_nat r = hi -> 0 <= i -> Q i b a m ->
    refines (mfold f a (seqZ i (Z.of_nat r)) m) (foldM g b (seqZ i (Z.of_nat r))) (Q hi).
Proof.
  intros Hf. induction r as [|r IH]; intros i b a m Hi H0 HQ.
  - cbn. apply refines_ret. by replace hi with i by lia.
  - rewrite seqZ_cons by lia. cbn [mfold foldM]. replace (Z.pred (Z.of_nat (Datatypes.S r))) with (Z.of_nat r) by lia.
    eapply refines_bind; [apply Hf; [lia|exact HQ]|]. intros b' a' m' HQ'. apply IH; [lia..|exact HQ'].
Qed.

Section NewNet.
  Context (E : env) (c num batch inputDim : Z) (sizes : list Z) (types : list NodeType) (lr : float64) (k l rp : list Z)
          (sparsity : list float64) (m : mem).
  Context (HL : e_LoadWeight E = false) (HD : dims_ok E num sizes batch inputDim).

  Definition new_inv (i : Z) (b : list LayerView * Z * nat * rng * nat) (a : list nat * Z) (m' : mem) : Prop :=
    let '(lvs, prev, pos, g, s) := b in
    exists lls, a = (map ll_ptr lls, prev) /\ (inputDim :: sizes) !! Z.to_nat i = Some prev /\ 0 <= prev /\
      length lls = length lvs /\ Z.of_nat (length lvs) = i /\ (forall j ll lv, lls !! j = Some ll -> lvs !! j = Some lv -> layer_rep m' c ll lv) /\
      lays_ok lls /\ spare_ok E lls /\ extends m m' /\ Forall (fresh_lay m) lls /\
      m_rng m' = g /\ m_norm m' = m_norm m /\ m_npos m' = pos /\ m_seeds m' = s.

  (** The objects of the new network did not exist before, and what existed is unchanged. *)
  Lemma network_New_gen :
    refines (network_New E c num sizes types batch lr inputDim k l rp sparsity m)
      (ref_net_new E (m_norm m) num sizes types batch inputDim k l rp sparsity (m_npos m) (m_rng m) (m_seeds m))
      (fun nv n m' => (exists arr, n = mkNet c arr lr num sparsity) /\ nw_num n = Z.of_nat (length (nv_layers nv)) /\ extends m m' /\
         exists lls, net_rep m' c (nw_layers n) lls nv /\ lays_ok lls /\ spare_ok E lls /\ Forall (fresh_lay m) lls).
  Proof.
    destruct HD as (HB & HI & HS). unfold network_New, ref_net_new.
    destruct (make_slice tt num) as [sl|q] eqn:Esl; cbn [mbind res_bind].
    2: { done. }
    apply make_slice_Ok in Esl as [Hnum ->]. eapply refines_skip; [reflexivity|]. rewrite replicate_length.
    replace num with (Z.of_nat (Z.to_nat num)) at 2 by lia.
    eapply refines_bind; [eapply (refines_fold_seq _ _ new_inv (Z.of_nat (Z.to_nat num))); [|lia|lia|]|].
    - intros i [[[[lvs prev] pos] g] s] a m' Hi (lls & -> & Hprev & Hp0 & HLn & HLi & Hat & O & SP & X & FR & Hg & Hno & Hnp & Hs).
      unfold ref_new_layer.
      destruct (sget sizes i) as [size|] eqn:E1; cbn [mbind res_bind]; [|done].
      rewrite bindM_lift.
      destruct (sget types i) as [ty|] eqn:E2; cbn [mbind res_bind]; [|done].
      rewrite bindM_lift.
      destruct (sget k i) as [ki|] eqn:E3; cbn [mbind res_bind]; [|done].
      rewrite bindM_lift.
      destruct (sget l i) as [li|] eqn:E4; cbn [mbind res_bind]; [|done].
      rewrite bindM_lift.
      destruct (sget rp i) as [rpi|] eqn:E5; cbn [mbind res_bind]; [|done].
      rewrite bindM_lift.
      destruct (sget sparsity i) as [sp|] eqn:E6; cbn [mbind res_bind]; [|done].
      rewrite bindM_lift.
      apply sget_Ok in E1 as [_ E1].
      destruct (HS (Z.to_nat i) size prev ltac:(lia) E1 Hprev) as (S1 & S2 & S3 & S4).
      pose proof (layer_New_ref E c i (Z.to_nat prev) (Z.to_nat size) (Z.to_nat batch) ty ki li rpi sp m' HL) as H.
      rewrite !Z2Nat.id in H by done. specialize (H S2 S3 S4). rewrite Hg, Hno, Hnp, Hs in H.
      eapply refines_bind; [exact H|]. intros [lv g'] lp m'' (ll & <- & X' & F & L & O1 & HW & G1 & G2 & G3 & G4).
      apply refines_ret. cbn [fst snd] in *. exists (lls ++ [ll]). split; [by rewrite map_app|].
      replace (Z.to_nat (i + 1)) with (S (Z.to_nat i)) by lia. split; [done|]. split; [done|].
      split; [rewrite !app_length; cbn; lia|]. split; [rewrite !app_length; cbn; lia|]. split; [|split; [|split; [|split]]].
      + intros j l1 v1 [H1|[-> ->]]%snoc_cases H2.
        * apply snoc_cases in H2 as [H2|[-> ->]]; [|apply lookup_lt_Some in H1; lia]. eapply extends_layer; [done|]. by eapply Hat.
        * rewrite HLn in H2. apply snoc_cases in H2 as [H2|[_ ->]]; [apply lookup_lt_Some in H2; lia|done].
      + by eapply lays_snoc.
      + intros Hh l1 ly [H1|H1%elem_of_list_singleton]%elem_of_app Hly; [by eapply SP|]. subst l1. rewrite (HW _ Hly).
        rewrite Z2Nat.id by done. by apply S4.
      + by eapply extends_trans.
      + split; [apply Forall_app; split; [done|]; constructor; [by eapply fresh_before|done]|]. split_and!; try done; congruence.
    - exists []. split; [done|]. split; [done|]. split; [done|]. split; [done|]. split_and!; first [done|apply lays_nil|apply extends_refl|apply Forall_nil_2|intros _ ?? []%elem_of_nil].
    - intros [[[[lvs prev] pos] g] s] a m' (lls & -> & _ & _ & HLn & HLi & Hat & O & SP & X & FR & Hg & Hno & Hnp & Hs).
      eapply refines_skip; [reflexivity|]. apply refines_ret.
      split; [by eexists|].
      assert (X' : extends m' (upd_la (fun r => r ++ [map ll_ptr lls]) m')) by (unfold extends; cbn; split_and!; try done; by eexists).
      split; [cbn; lia|]. split; [by eapply extends_trans|]. exists lls. split; [|done].
      constructor; cbn; try done.
      + rewrite lookup_app_r, Nat.sub_diag by lia. done.
      + intros. eapply extends_layer; [exact X'|]. by eapply Hat.
  Qed.
  Lemma network_New_ref :
    refines (network_New E c num sizes types batch lr inputDim k l rp sparsity m)
      (ref_net_new E (m_norm m) num sizes types batch inputDim k l rp sparsity (m_npos m) (m_rng m) (m_seeds m))
      (fun nv n m' => (exists arr, n = mkNet c arr lr num sparsity) /\ live E m' c n nv /\ extends m m').
  Proof.
    eapply refines_impl; [apply network_New_gen|]. cbn beta. intros nv n m' ((arr & ->) & Hn & X & lls & R & O & SP & _).
    split; [by eexists|]. split; [|done]. split; [done|]. split; [done|]. by exists lls.
  Qed.
End NewNet.
