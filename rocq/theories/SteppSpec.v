(** Specification of the Stepp (1971) completeness table, written from the description of
    the method and not from the code.  Times in years; durations are counted back from the
    last year of the catalogue. *)
From Coq Require Import ZArith Arith Bool List Reals.
From Verif Require Import Ops RFacts.
Import ListNotations.
Local Open Scope R_scope.

Definition is_max (m : R) (l : list R) : Prop := In m l /\ forall y, In y l -> y <= m.
Definition is_min (m : R) (l : list R) : Prop := In m l /\ forall y, In y l -> m <= y.

(** r is x rounded to two decimals (to the nearest; ties unspecified). *)
Definition hundredth (x r : R) : Prop :=
  (exists z : Z, r = IZR z / 100) /\ Rabs (r - x) <= 1 / 200.

(** Grid of the analysis: rounded magnitudes rm, magnitude edges lowm, lowm+dm, ... for n
    bins that reach the highest tenth, and nt durations dt, 2dt, ... below the length of the
    catalogue plus two years. *)
Record stepp_grid (year mw : list R) (dm dt : R)
    (rm : list R) (lowm endt : R) (n nt : nat) : Prop := {
  sg_round : Forall2 hundredth mw rm;
  sg_low : exists lo z, is_min lo rm /\ lowm = IZR z / 10 /\ lowm <= lo < lowm + 1 / 10;
  sg_bins : exists hi highm z, is_max hi rm /\ highm = IZR z / 10 /\
              highm - 1 / 10 < hi <= highm /\
              forall k, (k < n)%nat <-> lowm + INR k * dm < highm;
  sg_end : is_max endt year;
  sg_durs : exists start, is_min start year /\
              forall i, (i < nt)%nat <-> INR (i + 1) * dt < endt - start + 2
}.

(** Number of (year, rounded magnitude) events at most t years old in bin k of n; the last
    bin is open above. *)
Definition observed (ev : list (R * R)) (lowm dm endt : R) (n k : nat) (t : R) : nat :=
  count (fun e => Rleb (endt - t) (fst e) && (Rleb (lowm + INR k * dm) (snd e)
                  && (Nat.eqb (k + 1) n || Rltb (snd e) (lowm + INR (k + 1) * dm))))%bool ev.

(** Standard deviation of the annual rate of a Poisson process from c events in t years. *)
Definition rate_sigma (c : nat) (t : R) : R := Rmax (sqrt (INR c / t / t)) (1 / 100000000000000).

(** Slope of log sigma against log duration between durations i and i+1 (counted from 0). *)
Definition log_slope (c : nat -> nat) (dur : nat -> R) (i : nat) : R :=
  (Rlog10 (rate_sigma (c (i + 1)%nat) (dur (i + 1)%nat)) - Rlog10 (rate_sigma (c i) (dur i)))
  / (Rlog10 (dur (i + 1)%nat) - Rlog10 (dur i)).

(** The slope changes by more than ttol after duration i of bin k. *)
Definition violates (ev : list (R * R)) (lowm dm dt endt ttol : R) (n nt k i : nat) : Prop :=
  (i + 2 < nt)%nat /\
  let dur := fun j => INR (j + 1) * dt in
  let c := fun j => observed ev lowm dm endt n k (dur j) in
  ttol < Rabs (log_slope c dur (i + 1)%nat - log_slope c dur i).

(** p is the last duration of bin k with a violation. *)
Definition last_violation ev lowm dm dt endt ttol (n nt k p : nat) : Prop :=
  violates ev lowm dm dt endt ttol n nt k p /\
  forall q, violates ev lowm dm dt endt ttol n nt k q -> (q <= p)%nat.
