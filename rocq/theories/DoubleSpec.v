(** Doubles in a range (C132). *)
From Coq Require Import ZArith.
From Coq Require Import Floats.SpecFloat.

(** A double that is not less than [lo] and not more than [hi]; in particular a number. *)
Definition double_between (lo hi x : spec_float) : Prop :=
  SpecFloat.valid_binary 53 1024 x = true /\ SFleb lo x = true /\ SFleb x hi = true.
