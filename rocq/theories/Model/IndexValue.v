(** Model of index_value/index_value.go. *)
From Verif.Model Require Export Float64.

(** type Pair — index_value/index_value.go:7-10 *)
Record Pair := mkPair { iv_index : Z; iv_value : float64 }.
