(** Specification for C147: mean magnitudes of the bins of a catalogue. *)
From Coq Require Import List Reals.
From Verif Require Import RFacts CatalogueSpec.
Import ListNotations.
Local Open Scope R_scope.

(** The mean bin magnitude of the counted events. *)
Definition counted_mean (bins : list mbin) : R :=
  Rsum (map (fun x => INR (mb_n x) * mb_mag x) bins) / INR (bins_total bins).

(** The mean bin magnitude over the observation times: what a catalogue with b = 0 has. *)
Definition time_mean (bins : list mbin) : R :=
  Rsum (map (fun x => mb_time x * mb_mag x) bins) / Rsum (map mb_time bins).

(** From the centre of the first bin to the centre of the last. *)
Definition centre_range (bins : list mbin) (d_m : R) : R := (INR (length bins) - 1) * d_m.
