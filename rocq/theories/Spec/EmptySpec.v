(** What a training call without examples should do. *)
From Verif.Spec Require Export DenseSpec BatchSpec.
Local Open Scope Z_scope.

(** A training call without examples changes no prediction that uses every node: in a network made by New and used in
    any way, the same examples are counted as before. *)
Definition empty_claim (adam : bool) : Prop :=
  forall E c num sizes types batch lr inputDim k l rp sparsity m n m' os n' m1 exs cnt n1 m2 iter rehash rebuild ins n2 m3 cnt' n3 m4,
  e_LoadWeight E = false -> e_UseAdam E = adam -> dims_ok E num sizes batch inputDim ->
  network_New E c num sizes types batch lr inputDim k l rp sparsity m = Ok (n, m') ->
  call_ops E c n os m' = Ok (n', m1) -> dense_prediction n ->
  network_PredictClass E c n exs m1 = Ok ((cnt, n1), m2) ->
  network_ProcessInput E c n [] iter rehash rebuild m2 = Ok ((ins, n2), m3) ->
  network_PredictClass E c n exs m3 = Ok ((cnt', n3), m4) -> cnt' = cnt.
