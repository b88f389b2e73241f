(** Property C74: configuration files (configuration/configuration.go, goslide.go). *)
From Verif.Model Require Import Load.
From Verif.Spec Require Import LayerSpec XcSpec ProgramSpec ConfigSpec.
From Verif.Proofs Require Import NetSafe ConfigFields ConfigProofs ConfigRun.
From Verif.Properties Require Import XcProps MainProps ProgramProps.
From Coq Require Import Lia Strings.String.
Local Open Scope Z_scope.

(** * C74 A configuration file means what it says *)
(** An object is accepted exactly when all its values suit the settings they are for; unknown keys do not matter. *)
Theorem C74_accepted : forall pf kvs, (exists c, unmarshal pf (JObject kvs) = Some c) <-> well_typed pf kvs.
Proof. exact unmarshal_total. Qed.
Print Assumptions C74_accepted.

(** The configuration is then the one the object stands for: each setting given by the file has the given value, every
    other one its default.  (A list setting that is given twice is left out.) *)
Theorem C74_values : forall pf kvs c, lists_once kvs ->
  unmarshal pf (JObject kvs) = Some c <-> well_typed pf kvs /\ config_of pf kvs c.
Proof. exact unmarshal_object. Qed.
Print Assumptions C74_values.

(** FromJsonFile: an error exactly when the file cannot be read, is not JSON, or is neither null nor a well-typed
    object; otherwise the configuration the file says. *)
Theorem C74_file_accepted : forall ld pf name, (exists c, FromJsonFile ld pf name = Some c) <-> proper_file ld pf name.
Proof. exact file_total. Qed.
Print Assumptions C74_file_accepted.
Theorem C74_file : forall ld pf name c,
  (forall text kvs, ld_read ld name = Some text -> ld_parse ld text = Some (JObject kvs) -> lists_once kvs) ->
  FromJsonFile ld pf name = Some c <-> proper_file ld pf name /\ file_says ld pf name c.
Proof. exact file_means. Qed.
Print Assumptions C74_file.

(** Every configuration can be written as a file and read back, whatever the order of its members and whatever
    unknown members are added. *)
Theorem C74_round_trip : forall pf fmt c extra kvs,
  writable_config pf fmt c -> kvs ≡ₚ write_config fmt c ++ extra ->
  Forall (fun kv => Forall (fun n => ~ names kv.1 n) setting_names) extra ->
  unmarshal pf (JObject kvs) = Some c.
Proof. exact written_read. Qed.
Print Assumptions C74_round_trip.

(** The program stops before it touches any data when it has not exactly one argument or when that is not a proper
    configuration file, and otherwise runs with the configuration the file says. *)
Theorem C74_program : forall ld w prog args m,
  (List.length args <> 1%nat -> goslide ld w (prog :: args) m = Panic (PMsg 22)) /\
  (forall name, args = [name] -> ~ proper_file ld (w_parseFloat w) name -> goslide ld w (prog :: args) m = Panic (PMsg 23)) /\
  (forall name c, args = [name] ->
     (forall text kvs, ld_read ld name = Some text -> ld_parse ld text = Some (JObject kvs) -> lists_once kvs) ->
     proper_file ld (w_parseFloat w) name -> file_says ld (w_parseFloat w) name c ->
     goslide ld w (prog :: args) m = main w (fc_cfg c) m).
Proof. exact goslide_spec. Qed.
Print Assumptions C74_program.

(** From the file on disk to the end: a file that says a well-formed configuration, with data that fits, runs to the
    end. *)
Theorem C74_runs : forall ld w prog name c train test m,
  (forall text kvs, ld_read ld name = Some text -> ld_parse ld text = Some (JObject kvs) -> lists_once kvs) ->
  proper_file ld (w_parseFloat w) name -> file_says ld (w_parseFloat w) name c ->
  let cfg := fc_cfg c in
  program_ok cfg ->
  well_formed (settings w cfg) (c_NumLayer cfg) (c_SizesOfLayers cfg) (program_types cfg) (c_BatchSize cfg) (c_InputDim cfg)
    (c_K cfg) (c_L cfg) (c_RangePow cfg) (c_Sparsity cfg) ->
  file_delivers w (c_TrainData cfg) train -> file_delivers w (c_TestData cfg) test ->
  Forall (fun ex => features_fit (c_InputDim cfg) ex /\ labels_fit (c_NumLayer cfg) (c_SizesOfLayers cfg) (program_types cfg) ex) train ->
  Forall (features_fit (c_InputDim cfg)) test ->
  exists log m', goslide ld w [prog; name] m = Ok (log, m').
Proof. exact goslide_runs. Qed.
Print Assumptions C74_runs.

(** * A file that sets what the example program of MainProps needs, in odd spellings, with a null, a repeated key and
      an unknown key *)
Definition cfg_fmt (x : float64) : bytes := if feqb x fone then [49] else [53].
Definition cfg_pf (t : bytes) : option float64 :=
  if bool_decide (t = [49]) then Some fone else if bool_decide (t = [53]) then Some main_half else None.
Definition num (s : string) : json := JNumber (str s).
Definition cfg_object : list (bytes * json) :=
  [(str "rangepow", JArray [num "2"; num "2"]); (str "k", JArray [num "1"; num "1"]); (str "L", JArray [num "3"; num "3"]);
   (str "Sparsity", JArray [num "1"; num "5"; num "1"; num "5"]); (str "BATCHSIZE", num "7"); (str "BatchSize", num "1");
   (str "batchSize", JNull); (str "comment", JObject [(str "BatchSize", num "3")]); (str "Rehash", num "1"); (str "Rebuild", num "2");
   (str "InputDim", num "4"); (str "TotRecords", num "2"); (str "TotRecordsTest", num "2"); (str "LearningRate", num "5");
   (str "Epoch", num "2"); (str "Stepsize", num "1"); (str "SizesOfLayers", JArray [num "3"; num "3"]); (str "NumLayer", num "2");
   (str "HashFunction", num "4")].
Definition cfg_loader : loader := mkLoader (fun _ => Some []) (fun _ => Some (JObject cfg_object)).
Definition cfg_world : world :=
  mkWorld (fun _ => Some (reader_ex EOF)) cfg_pf (fun x => x) (fun x _ => x) (fun x => x) (fun _ x => x) 100.

Lemma cfg_once : lists_once cfg_object.
Proof. apply once_of_gv; repeat (apply Forall_cons; split; [vm_compute; lia|]); by apply Forall_nil. Qed.
Example C74_ex :
  unmarshal cfg_pf (JObject cfg_object) = Some (mkFC (main_cfg 1) [] [] [] false false) /\
  well_typed cfg_pf cfg_object /\ lists_once cfg_object /\ config_of cfg_pf cfg_object (mkFC (main_cfg 1) [] [] [] false false) /\
  proper_file cfg_loader cfg_pf (str "conf.json") /\ file_says cfg_loader cfg_pf (str "conf.json") (mkFC (main_cfg 1) [] [] [] false false).
Proof.
  assert (H : unmarshal cfg_pf (JObject cfg_object) = Some (mkFC (main_cfg 1) [] [] [] false false)) by (vm_compute; reflexivity).
  pose proof (proj1 (C74_values _ _ _ cfg_once) H) as [H1 H2]. split; [done|]. split; [done|]. split; [exact cfg_once|]. split; [done|].
  apply C74_file; [|done]. intros text kvs _ E. injection E as <-. exact cfg_once.
Qed.
(** Ill-typed values, and a fraction or an exponent in an int. *)
Example C74_errors_ex :
  unmarshal cfg_pf (JObject [(str "BatchSize", JString (str "1"))]) = None /\
  unmarshal cfg_pf (JObject [(str "epoch", num "1e3")]) = None /\
  unmarshal cfg_pf (JObject [(str "HashFunction", num "128")]) = None /\
  unmarshal cfg_pf (JObject [(str "LogFile", JBool true); (str "Epoch", num "1")]) = None /\
  unmarshal cfg_pf (JArray []) = None /\
  unmarshal cfg_pf (JObject [(str "K", JArray [num "4"; JNull])]) =
    Some (mkFC (mkCfg [] [4; 0] [] [] 1000 1000 1000 784 60000 10000 one_ten_thousandth 5 20 [] 3 [] [] true DensifiedWtaHashFunction false LayerMode4)
      [] [] [] false false).
Proof. repeat split; vm_compute; reflexivity. Qed.
Example C74_round_trip_ex :
  writable_config cfg_pf cfg_fmt (mkFC (main_cfg 1) (str "w") [] [] true false) /\
  Forall (fun kv => Forall (fun n => ~ names kv.1 n) setting_names) [(str "comment", JNull)].
Proof.
  split.
  - repeat split; repeat first [apply Forall_nil; done|apply Forall_cons; split];
      first [vm_compute; (reflexivity || (split; discriminate))|idtac].
  - apply Forall_singleton. let l := eval vm_compute in setting_names in change setting_names with l.
    repeat (apply Forall_cons; split; [rewrite names_lower; vm_compute; discriminate|]). by apply Forall_nil.
Qed.
Example C74_program_ex : forall prog,
  goslide cfg_loader cfg_world [prog; str "conf.json"] main_mem = main cfg_world (main_cfg 1) main_mem /\
  goslide cfg_loader cfg_world [prog] main_mem = Panic (PMsg 22).
Proof.
  intros prog. destruct C74_ex as (_ & _ & _ & _ & Hp & Hs). split; [|exact (goslide_args _ _ [prog] _ (n_Sn 1))].
  refine (proj2 (proj2 (C74_program cfg_loader cfg_world prog [str "conf.json"] main_mem)) (str "conf.json")
    (mkFC (main_cfg 1) [] [] [] false false) eq_refl _ Hp Hs).
  intros text kvs _ E. injection E as <-. exact cfg_once.
Qed.
