(** Model of configuration.FromJsonFile and of the start of main in goslide.go.  Reading a file and the JSON
    grammar (encoding/json's scanner, string unquoting) are outside the model: [ld_read] is ioutil.ReadFile and
    [ld_parse] turns a text into a JSON value, or fails.  What json.Unmarshal does with that value for the
    Configuration struct (encoding/json/decode.go: value, object, array, literalStore) is modelled here. *)
From Verif.Model Require Export Main.
From Coq Require Import Strings.String Strings.Ascii.
Local Open Scope Z_scope.

(** The bytes of a string literal. *)
Definition str (s : string) : bytes := List.map (fun c => Z.of_N (N_of_ascii c)) (list_ascii_of_string s).

(** A JSON value; numbers keep their text, as the decoder does. *)
Inductive json :=
  | JNull | JBool (b : bool) | JNumber (lit : bytes) | JString (s : bytes) | JArray (l : list json) | JObject (kvs : list (bytes * json)).

(** The whole Configuration struct — configuration/configuration.go:14-41: the fields the other packages read and
    those that nothing or only profiling reads. *)
Record FileConfig := mkFC {
  fc_cfg : Configuration; fc_Weights : bytes; fc_SavedWeights : bytes; fc_LogFile : bytes; fc_CpuProfile : bool; fc_MemProfile : bool
}.
(** Default — configuration/configuration.go:61-90 *)
Definition fc_Default : FileConfig := mkFC cfg_Default [] [] [] false false.

(** The constants behind the enumerations — configuration/configuration.go:43-59: an int8, starting at 1. *)
Definition hash_of_int (z : Z) : HashFunctionType :=
  if z =? 1 then WtaHashFunction else if z =? 2 then DensifiedWtaHashFunction else if z =? 3 then DensifiedMinhashFunction
  else if z =? 4 then SparseRandomProjectionHashFunction else HashOther.
Definition mode_of_int (z : Z) : LayerModeType :=
  if z =? 1 then LayerMode1 else if z =? 2 then LayerMode2 else if z =? 3 then LayerMode3 else if z =? 4 then LayerMode4 else LayerModeOther.

(** literalStore for each kind of field — encoding/json/decode.go.  The first argument is the old value, which a null
    leaves alone; [None] is a saved UnmarshalTypeError. *)
Definition store_int (old : Z) (j : json) : option Z :=
  match j with JNull => Some old | JNumber lit => atoi lit | _ => None end.
(** An int8: OverflowInt is an error. *)
Definition store_int8 (j : json) : option (option Z) :=
  match j with
  | JNull => Some None
  | JNumber lit => z ← atoi lit; if (-128 <=? z) && (z <=? 127) then Some (Some z) else None
  | _ => None
  end.
Definition store_hash (old : HashFunctionType) (j : json) : option HashFunctionType := from_option hash_of_int old <$> store_int8 j.
Definition store_mode (old : LayerModeType) (j : json) : option LayerModeType := from_option mode_of_int old <$> store_int8 j.
Definition store_float (pf : bytes -> option float64) (old : float64) (j : json) : option float64 :=
  match j with JNull => Some old | JNumber lit => pf lit | _ => None end.
Definition store_bool (old : bool) (j : json) : option bool := match j with JNull => Some old | JBool b => Some b | _ => None end.
Definition store_string (old : bytes) (j : json) : option bytes := match j with JNull => Some old | JString s => Some s | _ => None end.
(** array — encoding/json/decode.go: element [k] is decoded over the old element [k], which is zero beyond the old
    length.  (When an earlier, longer value of the same key was followed by a shorter one, a null element can bring a
    hidden old element back; this is not modelled.)  A null makes the slice nil. *)
Fixpoint store_elems {A} (store : A -> json -> option A) (zero : A) (old : list A) (l : list json) : option (list A) :=
  match l with
  | [] => Some []
  | j :: l' => x ← store (default zero (head old)) j; xs ← store_elems store zero (tail old) l'; Some (x :: xs)
  end.
Definition store_slice {A} (store : A -> json -> option A) (zero : A) (old : list A) (j : json) : option (list A) :=
  match j with JNull => Some [] | JArray l => store_elems store zero old l | _ => None end.

(** Field by field, in the order of the struct — configuration/configuration.go:14-41. *)
Definition set_cfg (c : FileConfig) (f : Configuration -> Configuration) : FileConfig :=
  mkFC (f (fc_cfg c)) (fc_Weights c) (fc_SavedWeights c) (fc_LogFile c) (fc_CpuProfile c) (fc_MemProfile c).
Definition upd {A} (get : Configuration -> A) (set : Configuration -> A -> Configuration) (store : A -> json -> option A)
    (c : FileConfig) (j : json) : option FileConfig := x ← store (get (fc_cfg c)) j; Some (set_cfg c (fun k => set k x)).
Definition struct_fields (pf : bytes -> option float64) : list (bytes * (FileConfig -> json -> option FileConfig)) :=
  [ (str "RangePow", upd c_RangePow (fun '(mkCfg _ a2 a3 a4 a5 a6 a7 a8 a9 a10 a11 a12 a13 a14 a15 a16 a17 a18 a19 a20 a21) x =>
       mkCfg x a2 a3 a4 a5 a6 a7 a8 a9 a10 a11 a12 a13 a14 a15 a16 a17 a18 a19 a20 a21) (store_slice store_int 0));
    (str "K", upd c_K (fun '(mkCfg a1 _ a3 a4 a5 a6 a7 a8 a9 a10 a11 a12 a13 a14 a15 a16 a17 a18 a19 a20 a21) x =>
       mkCfg a1 x a3 a4 a5 a6 a7 a8 a9 a10 a11 a12 a13 a14 a15 a16 a17 a18 a19 a20 a21) (store_slice store_int 0));
    (str "L", upd c_L (fun '(mkCfg a1 a2 _ a4 a5 a6 a7 a8 a9 a10 a11 a12 a13 a14 a15 a16 a17 a18 a19 a20 a21) x =>
       mkCfg a1 a2 x a4 a5 a6 a7 a8 a9 a10 a11 a12 a13 a14 a15 a16 a17 a18 a19 a20 a21) (store_slice store_int 0));
    (str "Sparsity", upd c_Sparsity (fun '(mkCfg a1 a2 a3 _ a5 a6 a7 a8 a9 a10 a11 a12 a13 a14 a15 a16 a17 a18 a19 a20 a21) x =>
       mkCfg a1 a2 a3 x a5 a6 a7 a8 a9 a10 a11 a12 a13 a14 a15 a16 a17 a18 a19 a20 a21) (store_slice (store_float pf) fzero));
    (str "BatchSize", upd c_BatchSize (fun '(mkCfg a1 a2 a3 a4 _ a6 a7 a8 a9 a10 a11 a12 a13 a14 a15 a16 a17 a18 a19 a20 a21) x =>
       mkCfg a1 a2 a3 a4 x a6 a7 a8 a9 a10 a11 a12 a13 a14 a15 a16 a17 a18 a19 a20 a21) store_int);
    (str "Rehash", upd c_Rehash (fun '(mkCfg a1 a2 a3 a4 a5 _ a7 a8 a9 a10 a11 a12 a13 a14 a15 a16 a17 a18 a19 a20 a21) x =>
       mkCfg a1 a2 a3 a4 a5 x a7 a8 a9 a10 a11 a12 a13 a14 a15 a16 a17 a18 a19 a20 a21) store_int);
    (str "Rebuild", upd c_Rebuild (fun '(mkCfg a1 a2 a3 a4 a5 a6 _ a8 a9 a10 a11 a12 a13 a14 a15 a16 a17 a18 a19 a20 a21) x =>
       mkCfg a1 a2 a3 a4 a5 a6 x a8 a9 a10 a11 a12 a13 a14 a15 a16 a17 a18 a19 a20 a21) store_int);
    (str "InputDim", upd c_InputDim (fun '(mkCfg a1 a2 a3 a4 a5 a6 a7 _ a9 a10 a11 a12 a13 a14 a15 a16 a17 a18 a19 a20 a21) x =>
       mkCfg a1 a2 a3 a4 a5 a6 a7 x a9 a10 a11 a12 a13 a14 a15 a16 a17 a18 a19 a20 a21) store_int);
    (str "TotRecords", upd c_TotRecords (fun '(mkCfg a1 a2 a3 a4 a5 a6 a7 a8 _ a10 a11 a12 a13 a14 a15 a16 a17 a18 a19 a20 a21) x =>
       mkCfg a1 a2 a3 a4 a5 a6 a7 a8 x a10 a11 a12 a13 a14 a15 a16 a17 a18 a19 a20 a21) store_int);
    (str "TotRecordsTest", upd c_TotRecordsTest (fun '(mkCfg a1 a2 a3 a4 a5 a6 a7 a8 a9 _ a11 a12 a13 a14 a15 a16 a17 a18 a19 a20 a21) x =>
       mkCfg a1 a2 a3 a4 a5 a6 a7 a8 a9 x a11 a12 a13 a14 a15 a16 a17 a18 a19 a20 a21) store_int);
    (str "LearningRate", upd c_LearningRate (fun '(mkCfg a1 a2 a3 a4 a5 a6 a7 a8 a9 a10 _ a12 a13 a14 a15 a16 a17 a18 a19 a20 a21) x =>
       mkCfg a1 a2 a3 a4 a5 a6 a7 a8 a9 a10 x a12 a13 a14 a15 a16 a17 a18 a19 a20 a21) (store_float pf));
    (str "Epoch", upd c_Epoch (fun '(mkCfg a1 a2 a3 a4 a5 a6 a7 a8 a9 a10 a11 _ a13 a14 a15 a16 a17 a18 a19 a20 a21) x =>
       mkCfg a1 a2 a3 a4 a5 a6 a7 a8 a9 a10 a11 x a13 a14 a15 a16 a17 a18 a19 a20 a21) store_int);
    (str "Stepsize", upd c_Stepsize (fun '(mkCfg a1 a2 a3 a4 a5 a6 a7 a8 a9 a10 a11 a12 _ a14 a15 a16 a17 a18 a19 a20 a21) x =>
       mkCfg a1 a2 a3 a4 a5 a6 a7 a8 a9 a10 a11 a12 x a14 a15 a16 a17 a18 a19 a20 a21) store_int);
    (str "SizesOfLayers", upd c_SizesOfLayers (fun '(mkCfg a1 a2 a3 a4 a5 a6 a7 a8 a9 a10 a11 a12 a13 _ a15 a16 a17 a18 a19 a20 a21) x =>
       mkCfg a1 a2 a3 a4 a5 a6 a7 a8 a9 a10 a11 a12 a13 x a15 a16 a17 a18 a19 a20 a21) (store_slice store_int 0));
    (str "NumLayer", upd c_NumLayer (fun '(mkCfg a1 a2 a3 a4 a5 a6 a7 a8 a9 a10 a11 a12 a13 a14 _ a16 a17 a18 a19 a20 a21) x =>
       mkCfg a1 a2 a3 a4 a5 a6 a7 a8 a9 a10 a11 a12 a13 a14 x a16 a17 a18 a19 a20 a21) store_int);
    (str "TrainData", upd c_TrainData (fun '(mkCfg a1 a2 a3 a4 a5 a6 a7 a8 a9 a10 a11 a12 a13 a14 a15 _ a17 a18 a19 a20 a21) x =>
       mkCfg a1 a2 a3 a4 a5 a6 a7 a8 a9 a10 a11 a12 a13 a14 a15 x a17 a18 a19 a20 a21) store_string);
    (str "TestData", upd c_TestData (fun '(mkCfg a1 a2 a3 a4 a5 a6 a7 a8 a9 a10 a11 a12 a13 a14 a15 a16 _ a18 a19 a20 a21) x =>
       mkCfg a1 a2 a3 a4 a5 a6 a7 a8 a9 a10 a11 a12 a13 a14 a15 a16 x a18 a19 a20 a21) store_string);
    (str "Weights", fun '(mkFC c w s l p q) j => x ← store_string w j; Some (mkFC c x s l p q));
    (str "SavedWeights", fun '(mkFC c w s l p q) j => x ← store_string s j; Some (mkFC c w x l p q));
    (str "LogFile", fun '(mkFC c w s l p q) j => x ← store_string l j; Some (mkFC c w s x p q));
    (str "UseAdam", upd c_UseAdam (fun '(mkCfg a1 a2 a3 a4 a5 a6 a7 a8 a9 a10 a11 a12 a13 a14 a15 a16 a17 _ a19 a20 a21) x =>
       mkCfg a1 a2 a3 a4 a5 a6 a7 a8 a9 a10 a11 a12 a13 a14 a15 a16 a17 x a19 a20 a21) store_bool);
    (str "HashFunction", upd c_HashFunction (fun '(mkCfg a1 a2 a3 a4 a5 a6 a7 a8 a9 a10 a11 a12 a13 a14 a15 a16 a17 a18 _ a20 a21) x =>
       mkCfg a1 a2 a3 a4 a5 a6 a7 a8 a9 a10 a11 a12 a13 a14 a15 a16 a17 a18 x a20 a21) store_hash);
    (str "LoadWeight", upd c_LoadWeight (fun '(mkCfg a1 a2 a3 a4 a5 a6 a7 a8 a9 a10 a11 a12 a13 a14 a15 a16 a17 a18 a19 _ a21) x =>
       mkCfg a1 a2 a3 a4 a5 a6 a7 a8 a9 a10 a11 a12 a13 a14 a15 a16 a17 a18 a19 x a21) store_bool);
    (str "LayerMode", upd c_LayerMode (fun '(mkCfg a1 a2 a3 a4 a5 a6 a7 a8 a9 a10 a11 a12 a13 a14 a15 a16 a17 a18 a19 a20 _) x =>
       mkCfg a1 a2 a3 a4 a5 a6 a7 a8 a9 a10 a11 a12 a13 a14 a15 a16 a17 a18 a19 a20 x) store_mode);
    (str "CpuProfile", fun '(mkFC c w s l p q) j => x ← store_bool p j; Some (mkFC c w s l x q));
    (str "MemProfile", fun '(mkFC c w s l p q) j => x ← store_bool q j; Some (mkFC c w s l p x)) ].

(** Finding the field of a key — encoding/json/decode.go (object): an exact match, else the first field that matches
    without regard to case.  ASCII letters only; the decoder also takes the Kelvin sign for k and the long s for s. *)
Definition lower (c : Z) : Z := if (65 <=? c) && (c <=? 90) then c + 32 else c.
Definition find_field {A} (fs : list (bytes * A)) (key : bytes) : option A :=
  match list_find (fun f => f.1 = key) fs with
  | Some (_, f) => Some f.2
  | None => match list_find (fun f => map lower f.1 = map lower key) fs with Some (_, f) => Some f.2 | None => None end
  end.
(** object — encoding/json/decode.go: member after member; unknown keys are skipped.  After a type error decoding
    goes on, but Unmarshal returns the error in the end and the struct is dropped, so here it stops. *)
Definition store_member (pf : bytes -> option float64) (c : FileConfig) (kv : bytes * json) : option FileConfig :=
  match find_field (struct_fields pf) kv.1 with Some store => store c kv.2 | None => Some c end.
Fixpoint store_members (pf : bytes -> option float64) (c : FileConfig) (kvs : list (bytes * json)) : option FileConfig :=
  match kvs with [] => Some c | kv :: kvs' => c' ← store_member pf c kv; store_members pf c' kvs' end.
(** json.Unmarshal into the default configuration: a null does nothing, anything but an object is an error. *)
Definition unmarshal (pf : bytes -> option float64) (j : json) : option FileConfig :=
  match j with JNull => Some fc_Default | JObject kvs => store_members pf fc_Default kvs | _ => None end.

(** What is outside the model: the file system and the JSON grammar. *)
Record loader := mkLoader { ld_read : bytes -> option bytes; ld_parse : bytes -> option json }.
(** FromJsonFile — configuration/configuration.go:92-105; [None] is any error *)
Definition FromJsonFile (ld : loader) (pf : bytes -> option float64) (name : bytes) : option FileConfig :=
  text ← ld_read ld name; j ← ld_parse ld text; unmarshal pf j.

(** validateArguments, loadGlobalConfiguration and main — goslide.go:24-101, 222-239, without profiling.  [args] is
    os.Args.  logger.Fatal: PMsg 22 "malformed arguments", PMsg 23 "error reading the configuration". *)
Definition goslide (ld : loader) (w : world) (args : list bytes) : M (list logline) :=
  match args with
  | [_; name] =>
      match FromJsonFile ld (w_parseFloat w) name with
      | Some c => main w (fc_cfg c)
      | None => lift (Panic (PMsg 23))
      end
  | _ => lift (Panic (PMsg 22))
  end.
