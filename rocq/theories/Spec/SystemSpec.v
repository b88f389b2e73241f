(** Several networks in one program. *)
From Verif.Spec Require Export BatchSpec.

(** The arguments of network.New. *)
Record new_args := mkArgs {
  na_cow : Z; na_num : Z; na_sizes : list Z; na_types : list NodeType; na_batch : Z; na_lr : float64; na_input : Z;
  na_k : list Z; na_l : list Z; na_rp : list Z; na_sparsity : list float64
}.
Definition make_network (E : env) (a : new_args) : M Network :=
  network_New E (na_cow a) (na_num a) (na_sizes a) (na_types a) (na_batch a) (na_lr a) (na_input a) (na_k a) (na_l a) (na_rp a) (na_sparsity a).

(** The program makes networks and uses them in any order; the networks are numbered in the order in which
    they were made, and each is used with the id it was made with. *)
Inductive sys_op := SysNew (a : new_args) | SysCall (i : nat) (o : net_op).
Definition sys_step (E : env) (ns : list Network) (s : sys_op) : M (list Network) :=
  match s with
  | SysNew a => n ← make_network E a; mret (ns ++ [n])
  | SysCall i o =>
      match ns !! i with
      | Some n => n' ← call_op E (nw_cowId n) n o; mret (<[i := n']> ns)
      | None => mret ns
      end
  end.
Definition sys_run (E : env) (ns : list Network) (ss : list sys_op) : M (list Network) := mfold (sys_step E) ns ss.

(** The calls made on network [i]. *)
Definition own_calls (i : nat) (ss : list sys_op) : list net_op :=
  omap (fun s => match s with SysCall j o => if bool_decide (j = i) then Some o else None | SysNew _ => None end) ss.
(** The step does not call network [i]. *)
Definition not_on (i : nat) (s : sys_op) : Prop := match s with SysCall j _ => j <> i | SysNew _ => True end.
(** Every network is made with dimensions that do not overflow. *)
Definition sizes_fit (E : env) (ss : list sys_op) : Prop :=
  forall a, SysNew a ∈ ss -> dims_ok E (na_num a) (na_sizes a) (na_batch a) (na_input a).
