(** The configuration enumerations — configuration/configuration.go:43-59. *)
From Verif.Model Require Export Base.

(** HashFunctionType — configuration/configuration.go:43-50.  [HashOther] stands for any
    other int8 value. *)
Inductive HashFunctionType :=
  | WtaHashFunction | DensifiedWtaHashFunction | DensifiedMinhashFunction
  | SparseRandomProjectionHashFunction | HashOther.

(** LayerModeType — configuration/configuration.go:52-59. *)
Inductive LayerModeType := LayerMode1 | LayerMode2 | LayerMode3 | LayerMode4 | LayerModeOther.
