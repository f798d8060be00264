(** Specification of C107: the members of a cluster follow each other in time. *)
From Coq Require Import ZArith List Reals.
From Verif Require Import Base Ops CatUtil Decluster DeclusterSpec.
Import ListNotations.
Local Open Scope R_scope.

(** Row k is reached from the kept row of cluster c by steps between rows of the cluster,
    each to an event with flag [sgn] of no larger magnitude: for sgn = 1 at or after the
    event before it and at most [years] later, for sgn = -1 at or before it and at most
    [years] earlier. *)
Inductive time_chain (cat : list (event ROps)) (vcl : list nat) (flag : list Z)
    (c : nat) (sgn : Z) (years : R) : nat -> Prop :=
| chain_start : forall k,
    nth_error vcl k = Some c -> nth_error flag k = Some 0%Z ->
    time_chain cat vcl flag c sgn years k
| chain_step : forall k k' e e' dt,
    time_chain cat vcl flag c sgn years k ->
    nth_error cat k = Some e -> nth_error cat k' = Some e' ->
    nth_error vcl k' = Some c -> nth_error flag k' = Some sgn ->
    @delay ROps e e' = Some dt -> 0 <= IZR sgn * dt <= years ->
    ev_mw e' <= ev_mw e ->
    time_chain cat vcl flag c sgn years k'.
