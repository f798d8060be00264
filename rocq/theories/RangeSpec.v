(** Specification for C138: when Kijko's estimate is known not to fall below the largest event. *)
From Coq Require Import ZArith String List Reals.
From Verif Require Import Base Ops RFacts SteppSpec MaxMag Jobs.
Import ListNotations.
Local Open Scope R_scope.

(** Settings of the maximum magnitude job: Kijko's method, at least two points, an ordinary
    tolerance.  [fuel] is the number of passes the model allows (no limit in the code). *)
Definition kijko_settings (fuel : nat) (k : mm_conf ROps) : Prop :=
  mm_algorithm k = "Kijko_Npg"%string /\ (2 <= mm_samples k)%nat /\ 0 <= mm_tolerance k < 100000000 /\
  (mm_max_iter k + 1 <= fuel)%nat.

(** The magnitudes used are not all equal, the bandwidth is positive, and no magnitude is more than
    five bandwidths above the smallest one. *)
Definition kijko_spread (mags : list R) (neq : nat) : Prop :=
  exists sel n mmin, @largest ROps mags neq = (sel, n) /\ is_min mmin sel /\ (exists m, In m sel /\ mmin < m) /\
    0 < @h_smooth ROps sel /\ forall m, In m sel -> m <= mmin + 5 * @h_smooth ROps sel.
