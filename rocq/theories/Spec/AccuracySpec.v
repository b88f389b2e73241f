(** The float64 nearest to a proportion. *)
From Verif.Model Require Export Float64.
From Coq Require Import Reals.
From Flocq Require Import Core BinarySingleNaN.

(** [q] is the float64 nearest to [a/b] (ties to even), and it compares between 0 and 1. *)
Definition proportion (q : float64) (a b : Z) : Prop :=
  SF2R radix2 q = round radix2 (FLT_exp (-1074) 53) ZnearestE (IZR a / IZR b) /\
  fleb fzero q = true /\ fleb q fone = true.
