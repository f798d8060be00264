(** Specification vocabulary for dates: the proleptic Gregorian calendar. *)
From Coq Require Import ZArith Bool.
Local Open Scope Z_scope.

Definition leap (y : Z) : bool :=
  (y mod 4 =? 0) && (negb (y mod 100 =? 0) || (y mod 400 =? 0)).

(** Days of month m of year y. *)
Definition days_in_month (y m : Z) : Z :=
  match m with
  | 2 => if leap y then 29 else 28
  | 4 | 6 | 9 | 11 => 30
  | _ => 31
  end.

Definition valid_date (y m d : Z) : Prop := 1 <= m <= 12 /\ 1 <= d <= days_in_month y m.

(** The day after. *)
Definition next_day (y m d : Z) : Z * Z * Z :=
  if d <? days_in_month y m then (y, m, d + 1)
  else if m <? 12 then (y, m + 1, 1) else (y + 1, 1, 1).

(** Calendar order. *)
Definition date_lt (y m d y' m' d' : Z) : Prop :=
  y < y' \/ (y = y' /\ (m < m' \/ (m = m' /\ d < d'))).

(** Days before each month of a 365-day year. *)
Fixpoint days_before_nat (k : nat) : Z :=
  match k with
  | 0%nat => 0
  | S k' => days_before_nat k' + days_in_month 1 (Z.of_nat (S k'))
  end.

(** Day number counting day 1 of month 1 of year 1 as 1. *)
Definition ordinal (y m d : Z) : Z :=
  (365 * (y - 1) + (y - 1) / 4 - (y - 1) / 100 + (y - 1) / 400
   + days_before_nat (Z.to_nat (m - 1)) + (if leap y && (2 <? m) then 1 else 0) + d).

(** The months in which the formula is one day ahead. *)
Definition jd_off (y m : Z) : Z :=
  (if ((y mod 100 =? 0) && negb (y mod 400 =? 0) && (3 <=? m) && (m <=? 8))
      || ((y mod 100 =? 1) && negb (y mod 400 =? 1) && (m =? 1)) then 1 else 0).
