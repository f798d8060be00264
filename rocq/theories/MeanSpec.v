(** Specification for C137: mean magnitudes of a binned catalogue. *)
From Coq Require Import List Reals.
From Verif Require Import Base RFacts.
Import ListNotations.
Local Open Scope R_scope.

(** The mean of the magnitudes with the given weights: numbers of events or durations. *)
Definition mean_of (weights mags : list R) : R := Rsum (map2 Rmult weights mags) / Rsum weights.
