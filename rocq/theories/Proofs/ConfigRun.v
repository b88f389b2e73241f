(** Proofs for C74: the program from the command line on. *)
From Verif.Model Require Import Load.
From Verif.Spec Require Import LayerSpec XcSpec ProgramSpec ConfigSpec.
From Verif.Proofs Require Import NetSafe ProgramProofs ConfigFields ConfigProofs.
From Coq Require Import Lia.
Local Open Scope Z_scope.

Lemma goslide_spec ld w prog args m :
  (length args <> 1%nat -> goslide ld w (prog :: args) m = Panic (PMsg 22)) /\
  (forall name, args = [name] -> ~ proper_file ld (w_parseFloat w) name -> goslide ld w (prog :: args) m = Panic (PMsg 23)) /\
  (forall name c, args = [name] ->
     (forall text kvs, ld_read ld name = Some text -> ld_parse ld text = Some (JObject kvs) -> lists_once kvs) ->
     proper_file ld (w_parseFloat w) name -> file_says ld (w_parseFloat w) name c ->
     goslide ld w (prog :: args) m = main w (fc_cfg c) m).
Proof.
  split; [|split].
  - intros H. apply goslide_args. cbn. lia.
  - intros name -> H. by apply goslide_bad.
  - intros name c -> Ho Hp Hs. by apply goslide_good.
Qed.
Lemma goslide_runs ld w prog name c train test m :
  (forall text kvs, ld_read ld name = Some text -> ld_parse ld text = Some (JObject kvs) -> lists_once kvs) ->
  proper_file ld (w_parseFloat w) name -> file_says ld (w_parseFloat w) name c ->
  let cfg := fc_cfg c in
  program_ok cfg ->
  well_formed (settings w cfg) (c_NumLayer cfg) (c_SizesOfLayers cfg) (program_types cfg) (c_BatchSize cfg) (c_InputDim cfg)
    (c_K cfg) (c_L cfg) (c_RangePow cfg) (c_Sparsity cfg) ->
  file_delivers w (c_TrainData cfg) train -> file_delivers w (c_TestData cfg) test ->
  Forall (fun ex => features_fit (c_InputDim cfg) ex /\ labels_fit (c_NumLayer cfg) (c_SizesOfLayers cfg) (program_types cfg) ex) train ->
  Forall (features_fit (c_InputDim cfg)) test ->
  exists log m', goslide ld w [prog; name] m = Ok (log, m').
Proof.
  intros Ho Hp Hs cfg H1 H2 H3 H4 H5 H6. rewrite (goslide_good ld w prog name c m Ho Hp Hs).
  exact (program_runs w cfg train test m H1 H2 H3 H4 H5 H6).
Qed.
(** For the examples: [lists_once] by computation. *)
Lemma once_of_gv kvs :
  Forall (fun s => (length (gv s.1.1 kvs) <= 1)%nat) ints_settings -> Forall (fun s => (length (gv s.1.1 kvs) <= 1)%nat) floats_settings ->
  lists_once kvs.
Proof.
  intros H1 H2 name Hn js Hg. apply given_gv in Hg as ->.
  apply elem_of_app in Hn as [Hn|Hn]; apply elem_of_list_fmap in Hn as (s & -> & Hs).
  - rewrite Forall_forall in H1. by apply H1.
  - rewrite Forall_forall in H2. by apply H2.
Qed.
