(** Specification for C146: the bins of a catalogue and the yearly rate of the events in them
    (Weichert 1980, equation for the annual number of events). *)
From Coq Require Import List Reals.
From Verif Require Import RFacts SteppSpec RecurrenceSpec CatalogueSpec.
Import ListNotations.
Local Open Scope R_scope.

(** Bins of width [d_m] from the smallest rounded magnitude [mmin] on that hold all events and end
    less than one and a half widths above the largest, the counts being those of the events that no
    completeness row excludes. *)
Definition catalogue_bins (year mag : list R) (table : list (R * R)) (d_m d_t mmin : R) (bins : list mbin) : Prop :=
  exists rm ymin ymax, Forall2 tenth mag rm /\ is_min ymin year /\ is_max ymax year /\ is_min mmin rm /\
    (2 <= length bins)%nat /\ (forall m, In m rm -> mmin <= m < mmin + INR (length bins) * d_m) /\
    (exists m, In m rm /\ mmin + INR (length bins) * d_m < m + 3 / 2 * d_m) /\
    forall i x, nth_error bins i = Some x ->
      mb_mag x = mmin + (INR i + 1 / 2) * d_m /\
      mb_n x = count (counts_in ymin d_t mmin d_m table i) (combine year rm) /\
      exists cy, time_row table (mmin + INR i * d_m) cy /\ mb_time x = ymax - cy + 1.

(** Events per year in all bins together: the counts, extended to equal observation times. *)
Definition yearly (bins : list mbin) (beta : R) : R :=
  INR (bins_total bins) * Rsum (map (fun x => exp (- beta * mb_mag x)) bins) / Rsum (map (expected beta) bins).
