(** Specification of C111: every magnitude larger by the same amount. *)
From Coq Require Import Reals List.
Local Open Scope R_scope.

(** Pairs of a year and a magnitude: events, or rows of a completeness table. *)
Definition raised (c : R) (l : list (R * R)) : list (R * R) := map (fun p => (fst p, snd p + c)) l.
