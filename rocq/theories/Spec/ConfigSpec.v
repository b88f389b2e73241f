(** What a configuration file means (C74). *)
From Verif.Model Require Import Load.
From Verif.Spec Require Import XcSpec.
From Coq Require Import Strings.String.
Local Open Scope Z_scope.

(** The settings, by kind: the name, the value when the file does not give one, and where the program finds it. *)
Definition int_settings : list (bytes * Z * (FileConfig -> Z)) :=
  [(str "BatchSize", 1000, fun c => c_BatchSize (fc_cfg c)); (str "Rehash", 1000, fun c => c_Rehash (fc_cfg c));
   (str "Rebuild", 1000, fun c => c_Rebuild (fc_cfg c)); (str "InputDim", 784, fun c => c_InputDim (fc_cfg c));
   (str "TotRecords", 60000, fun c => c_TotRecords (fc_cfg c)); (str "TotRecordsTest", 10000, fun c => c_TotRecordsTest (fc_cfg c));
   (str "Epoch", 5, fun c => c_Epoch (fc_cfg c)); (str "Stepsize", 20, fun c => c_Stepsize (fc_cfg c));
   (str "NumLayer", 3, fun c => c_NumLayer (fc_cfg c))].
(** 0.0001, as a float64 *)
Definition one_ten_thousandth : float64 := S754_finite false 7378697629483821 (-66).
Definition float_settings : list (bytes * float64 * (FileConfig -> float64)) :=
  [(str "LearningRate", one_ten_thousandth, fun c => c_LearningRate (fc_cfg c))].
Definition text_settings : list (bytes * bytes * (FileConfig -> bytes)) :=
  [(str "TrainData", [], fun c => c_TrainData (fc_cfg c)); (str "TestData", [], fun c => c_TestData (fc_cfg c));
   (str "Weights", [], fc_Weights); (str "SavedWeights", [], fc_SavedWeights); (str "LogFile", [], fc_LogFile)].
Definition bool_settings : list (bytes * bool * (FileConfig -> bool)) :=
  [(str "UseAdam", true, fun c => c_UseAdam (fc_cfg c)); (str "LoadWeight", false, fun c => c_LoadWeight (fc_cfg c));
   (str "CpuProfile", false, fc_CpuProfile); (str "MemProfile", false, fc_MemProfile)].
Definition hash_settings : list (bytes * HashFunctionType * (FileConfig -> HashFunctionType)) :=
  [(str "HashFunction", DensifiedWtaHashFunction, fun c => c_HashFunction (fc_cfg c))].
Definition mode_settings : list (bytes * LayerModeType * (FileConfig -> LayerModeType)) :=
  [(str "LayerMode", LayerMode4, fun c => c_LayerMode (fc_cfg c))].
Definition ints_settings : list (bytes * list Z * (FileConfig -> list Z)) :=
  [(str "RangePow", [], fun c => c_RangePow (fc_cfg c)); (str "K", [], fun c => c_K (fc_cfg c));
   (str "L", [], fun c => c_L (fc_cfg c)); (str "SizesOfLayers", [], fun c => c_SizesOfLayers (fc_cfg c))].
Definition floats_settings : list (bytes * list float64 * (FileConfig -> list float64)) :=
  [(str "Sparsity", [], fun c => c_Sparsity (fc_cfg c))].

(** What the JSON values of each kind mean: [means j x] says that [j] is a value of that kind and stands for [x]. *)
Definition int_means (j : json) (z : Z) : Prop := exists t, j = JNumber t /\ int_text t z.
Definition float_means (pf : bytes -> option float64) (j : json) (x : float64) : Prop := exists t, j = JNumber t /\ pf t = Some x.
Definition text_means (j : json) (s : bytes) : Prop := j = JString s.
Definition bool_means (j : json) (b : bool) : Prop := j = JBool b.
(** Enumerations are numbered from 1; other 8-bit numbers are accepted and stand for no member. *)
Definition numbered {A} (members : list A) (other : A) (j : json) (x : A) : Prop :=
  exists z, int_means j z /\ -128 <= z <= 127 /\
    ((1 <= z <= Z.of_nat (List.length members) /\ members !! Z.to_nat (z - 1) = Some x) \/
     (~ 1 <= z <= Z.of_nat (List.length members) /\ x = other)).
Definition hash_means : json -> HashFunctionType -> Prop :=
  numbered [WtaHashFunction; DensifiedWtaHashFunction; DensifiedMinhashFunction; SparseRandomProjectionHashFunction] HashOther.
Definition mode_means : json -> LayerModeType -> Prop := numbered [LayerMode1; LayerMode2; LayerMode3; LayerMode4] LayerModeOther.
(** A list: an array, in which null stands for zero. *)
Definition list_means {A} (means : json -> A -> Prop) (zero : A) (j : json) (xs : list A) : Prop :=
  exists l, j = JArray l /\ Forall2 (fun e x => means e x \/ (e = JNull /\ x = zero)) l xs.

(** Keys are compared without regard to the case of ASCII letters. *)
Definition same_letter (a b : Z) : Prop := a = b \/ (65 <= a <= 90 /\ b = a + 32) \/ (65 <= b <= 90 /\ a = b + 32).
Definition names (key name : bytes) : Prop := Forall2 same_letter key name.
(** [given kvs name js]: [js] are the values of the members of the object whose key names the setting, in order. *)
Inductive given (name : bytes) : list (bytes * json) -> list json -> Prop :=
  | given_nil : given name [] []
  | given_take key j kvs js : names key name -> given name kvs js -> given name ((key, j) :: kvs) (j :: js)
  | given_skip key j kvs js : ~ names key name -> given name kvs js -> given name ((key, j) :: kvs) js.

(** A setting of a simple kind: nulls are as if absent, and of several values the last one counts. *)
Definition simple_setting {A} (means : json -> A -> Prop) (kvs : list (bytes * json)) (c : FileConfig)
    (s : bytes * A * (FileConfig -> A)) : Prop :=
  let '(name, dflt, get) := s in
  exists js, given name kvs js /\
    ((Forall (eq JNull) js /\ get c = dflt) \/
     exists js1 j js2, js = js1 ++ j :: js2 /\ means j (get c) /\ Forall (eq JNull) js2).
(** A list setting, given at most once: null stands for the empty list. *)
Definition list_setting {A} (means : json -> A -> Prop) (zero : A) (kvs : list (bytes * json)) (c : FileConfig)
    (s : bytes * list A * (FileConfig -> list A)) : Prop :=
  let '(name, dflt, get) := s in
  (given name kvs [] /\ get c = dflt) \/ (given name kvs [JNull] /\ get c = []) \/
  exists j, given name kvs [j] /\ list_means means zero j (get c).
(** The configuration an object stands for. *)
Definition config_of (pf : bytes -> option float64) (kvs : list (bytes * json)) (c : FileConfig) : Prop :=
  Forall (simple_setting int_means kvs c) int_settings /\ Forall (simple_setting (float_means pf) kvs c) float_settings /\
  Forall (simple_setting text_means kvs c) text_settings /\ Forall (simple_setting bool_means kvs c) bool_settings /\
  Forall (simple_setting hash_means kvs c) hash_settings /\ Forall (simple_setting mode_means kvs c) mode_settings /\
  Forall (list_setting int_means 0 kvs c) ints_settings /\ Forall (list_setting (float_means pf) fzero kvs c) floats_settings.

(** No list setting is given twice. *)
Definition lists_once (kvs : list (bytes * json)) : Prop :=
  forall name, name ∈ map (fun s => fst (fst s)) ints_settings ++ map (fun s => fst (fst s)) floats_settings ->
  forall js, given name kvs js -> (List.length js <= 1)%nat.

(** An object is well typed when every value of a setting is null or of the setting's kind. *)
Definition typed {A} (means : json -> A -> Prop) (kvs : list (bytes * json)) (name : bytes) : Prop :=
  forall js, given name kvs js -> Forall (fun j => j = JNull \/ exists x, means j x) js.
Definition well_typed (pf : bytes -> option float64) (kvs : list (bytes * json)) : Prop :=
  Forall (fun s => typed int_means kvs (fst (fst s))) int_settings /\ Forall (fun s => typed (float_means pf) kvs (fst (fst s))) float_settings /\
  Forall (fun s => typed text_means kvs (fst (fst s))) text_settings /\ Forall (fun s => typed bool_means kvs (fst (fst s))) bool_settings /\
  Forall (fun s => typed hash_means kvs (fst (fst s))) hash_settings /\ Forall (fun s => typed mode_means kvs (fst (fst s))) mode_settings /\
  Forall (fun s => typed (list_means int_means 0) kvs (fst (fst s))) ints_settings /\
  Forall (fun s => typed (list_means (float_means pf) fzero) kvs (fst (fst s))) floats_settings.

(** The file [name] says [c]. *)
Definition file_says (ld : loader) (pf : bytes -> option float64) (name : bytes) (c : FileConfig) : Prop :=
  exists text j, ld_read ld name = Some text /\ ld_parse ld text = Some j /\
    ((j = JNull /\ config_of pf [] c) \/ exists kvs, j = JObject kvs /\ config_of pf kvs c).
(** The file [name] is a proper configuration file. *)
Definition proper_file (ld : loader) (pf : bytes -> option float64) (name : bytes) : Prop :=
  exists text j, ld_read ld name = Some text /\ ld_parse ld text = Some j /\
    (j = JNull \/ exists kvs, j = JObject kvs /\ well_typed pf kvs).

(** Writing a configuration: one member per setting. *)
Definition write_int (z : Z) : json := JNumber (if z <? 0 then chMinus :: write_nat (- z) else write_nat z).
Definition write_hash (h : HashFunctionType) : json :=
  write_int (match h with WtaHashFunction => 1 | DensifiedWtaHashFunction => 2 | DensifiedMinhashFunction => 3
             | SparseRandomProjectionHashFunction => 4 | HashOther => 0 end).
Definition write_mode (m : LayerModeType) : json :=
  write_int (match m with LayerMode1 => 1 | LayerMode2 => 2 | LayerMode3 => 3 | LayerMode4 => 4 | LayerModeOther => 0 end).
Definition write_config (fmt : float64 -> bytes) (c : FileConfig) : list (bytes * json) :=
  map (fun '(name, _, get) => (name, write_int (get c))) int_settings ++
  map (fun '(name, _, get) => (name, JNumber (fmt (get c)))) float_settings ++
  map (fun '(name, _, get) => (name, JString (get c))) text_settings ++
  map (fun '(name, _, get) => (name, JBool (get c))) bool_settings ++
  map (fun '(name, _, get) => (name, write_hash (get c))) hash_settings ++
  map (fun '(name, _, get) => (name, write_mode (get c))) mode_settings ++
  map (fun '(name, _, get) => (name, JArray (map write_int (get c)))) ints_settings ++
  map (fun '(name, _, get) => (name, JArray (map (fun x => JNumber (fmt x)) (get c)))) floats_settings.
Definition setting_names : list bytes :=
  map (fun s => fst (fst s)) int_settings ++ map (fun s => fst (fst s)) float_settings ++ map (fun s => fst (fst s)) text_settings ++
  map (fun s => fst (fst s)) bool_settings ++ map (fun s => fst (fst s)) hash_settings ++ map (fun s => fst (fst s)) mode_settings ++
  map (fun s => fst (fst s)) ints_settings ++ map (fun s => fst (fst s)) floats_settings.
(** A configuration that can be written: its integers are ints and its floats have texts. *)
Definition writable_config (pf : bytes -> option float64) (fmt : float64 -> bytes) (c : FileConfig) : Prop :=
  Forall (fun '(_, _, get) => in_int64 (get c)) int_settings /\ Forall (fun '(_, _, get) => Forall in_int64 (get c)) ints_settings /\
  Forall (fun '(_, _, get) => pf (fmt (get c)) = Some (get c)) float_settings /\
  Forall (fun '(_, _, get) => Forall (fun x => pf (fmt x) = Some x) (get c)) floats_settings.
