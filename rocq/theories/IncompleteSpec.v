(** Vocabulary of C128: incomplete events and the events that reach the ends of a catalogue. *)
From Coq Require Import Reals List.
Import ListNotations.
Local Open Scope R_scope.

(** A (year, magnitude) event that some row of the table calls incomplete. *)
Definition incomplete (table : list (R * R)) (e : R * R) : Prop :=
  exists cy cm, In (cy, cm) table /\ fst e < cy /\ snd e < cm.

(** The magnitude is a whole number of tenths. *)
Definition whole_tenths (e : R * R) : Prop := exists z : Z, snd e = IZR z / 10.

(** The selection has an event with the smallest, and one with the largest, value of [f]. *)
Definition keeps_ends (f : R * R -> R) (keep : R * R -> bool) (evs : list (R * R)) : Prop :=
  (exists e, In e evs /\ keep e = true /\ forall e', In e' evs -> f e <= f e') /\
  (exists e, In e evs /\ keep e = true /\ forall e', In e' evs -> f e' <= f e).
