(** Specification of C110: a catalogue in which every event is listed n times. *)
From Coq Require Import List.

Definition copies {A} (n : nat) (l : list A) : list A := concat (repeat l n).
