(** Client view of the LSH tables. *)
From Verif.Model Require Import Lsh.

(** Ids sent to (table, index) since the last Clear, oldest first. *)
Definition routed (ops : list lsh_op) (table index : Z) : list Z :=
  fold_left (fun h o =>
    match o with
    | LClear => []
    | LAddSingle t i id => if decide (t = table /\ i = index) then h ++ [id] else h
    | LAdd indices id =>
        if decide (indices !! Z.to_nat table = Some index) then h ++ [id] else h
    end) ops [].

(** Value of a digit string, most significant first. *)
Fixpoint digits_value (base : Z) (ds : list Z) : Z :=
  match ds with
  | [] => 0
  | d :: ds' => d * base ^ Z.of_nat (length ds') + digits_value base ds'
  end.

(** The K hashes that belong to table [i]. *)
Definition window (k i : Z) (hashes : list Z) : list Z :=
  take (Z.to_nat k) (drop (Z.to_nat (k * i)) hashes).

(** Arguments that address the L tables of 2^rp buckets each. *)
Definition valid_indices (l rp : Z) (indices : list Z) : Prop :=
  forall i, 0 <= i < l -> exists x, indices !! Z.to_nat i = Some x /\ 0 <= x < 2^rp.

Definition valid_op (l rp : Z) (o : lsh_op) : Prop :=
  match o with
  | LAdd indices _ => valid_indices l rp indices
  | LAddSingle t i _ => 0 <= t < l /\ 0 <= i < 2^rp
  | LClear => True
  end.
