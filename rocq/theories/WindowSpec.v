(** Published time and distance windows, for comparison with declustering.py:66-147. *)
From Coq Require Import Reals List.
Import ListNotations.
Local Open Scope R_scope.

(** The table of Gardner and Knopoff (1974): magnitude, distance in km, time in days. *)
Definition gk_table : list (R * R * R) :=
  [(5/2, 39/2, 6); (3, 45/2, 23/2); (7/2, 26, 22); (4, 30, 42); (9/2, 35, 83); (5, 40, 155);
   (11/2, 47, 290); (6, 54, 510); (13/2, 61, 790); (7, 70, 915); (15/2, 81, 960); (8, 94, 985)].

(** Uhrhammer (1986): time window in days. *)
Definition uhrhammer_days (m : R) : R := exp (- (287/100) + 1235/1000 * m).

(** Days of the years used by the code (declustering.py:88,116). *)
Definition days_of (years : R) : R := 365 * years.

(** Consecutive rows of a table. *)
Fixpoint steps {A} (l : list A) : list (A * A) :=
  match l with a :: ((b :: _) as r) => (a, b) :: steps r | _ => [] end.

(** A magnitude between those of two rows, and a distance and a duration between theirs up
    to the accuracy of a smooth fit: 5% in km, 15% below and 20% above in days. *)
Definition between_rows (m km days : R) (r : (R * R * R) * (R * R * R)) : Prop :=
  let '((m1, km1, d1), (m2, km2, d2)) := r in
  m1 <= m <= m2 /\ 95/100 * km1 <= km <= 105/100 * km2 /\ 85/100 * d1 <= days <= 120/100 * d2.
