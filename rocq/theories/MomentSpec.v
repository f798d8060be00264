(** Specification of the cumulative-moment estimate, in terms of dated events only. *)
From Coq Require Import ZArith List Reals.
From Verif Require Import RFacts.
Import ListNotations.
Local Open Scope R_scope.

(** Seismic moment of a magnitude (Hanks and Kanamori). *)
Definition seismic_moment (m : R) : R := Rpower 10 (905 / 100 + 15 / 10 * m).

(** Moment released by the events of a catalogue (year, magnitude) up to the end of year y. *)
Definition released (cat : list (Z * R)) (y : Z) : R :=
  Rsum (map (fun e => seismic_moment (snd e)) (filter (fun e => Z.leb (fst e) y) cat)).

(** Excess over a uniform release of the same total from the first to the last year. *)
Definition excess (cat : list (Z * R)) (first last y : Z) : R :=
  released cat y - IZR (y - first + 1) / IZR (last - first + 1) * released cat last.

(** Quantile: the piecewise linear function through (plotting position of rank i, i-th
    smallest value), constant outside; plotting position (i - 0.4) / (n + 0.2). *)
Definition plotting_position (n i : nat) : R := (INR i - 4 / 10) / (INR n + 2 / 10).
