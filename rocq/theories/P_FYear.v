(** Property C124: decimal_year, catalogue_utilities.py:30-50, in binary64. *)
From Coq Require Import ZArith Bool List Lia Reals Lra String.
From Coq Require Import Floats.SpecFloat.
From Flocq Require Import Core IEEE754.BinarySingleNaN.
From Verif Require Import Base Ops FloatOps CatUtil CalendarSpec Libm Demo FYear.
Local Open Scope R_scope.

(** C124.  For whole years up to a million, in double precision, with any mathematical library: the
    decimal year of a date is not below its year and below the next one, and it is within 10^-9 of
    the exact quotient. *)
Theorem C124_double_decimal_year_in_year : forall (lm : libm) y m d,
  (Z.abs y <= 1000000)%Z -> (1 <= m <= 12)%Z -> (1 <= d <= 31)%Z ->
  exists x r, @decimal_year1 (FOps lm) (F_ofZ y) (F_ofZ m) (F_ofZ d) = Ok x /\
    @decimal_year1 ROps (IZR y) (IZR m) (IZR d) = Ok r /\
    SFleb (F_ofZ y) x = true /\ SFltb x (F_ofZ (y + 1)) = true /\
    is_finite_SF x = true /\ Rabs (SF2R radix2 x - r) <= 1 / 1000000000.
Proof. exact C124_range_proof. Qed.
Print Assumptions C124_double_decimal_year_in_year.

(** C124: a later date never gets a smaller double, and a greater one unless the earlier date is a
    29 February. *)
Theorem C124_double_decimal_year_order : forall (lm : libm) y m d y' m' d' x x',
  (Z.abs y <= 1000000)%Z -> (Z.abs y' <= 1000000)%Z ->
  valid_date y m d -> valid_date y' m' d' -> date_lt y m d y' m' d' ->
  @decimal_year1 (FOps lm) (F_ofZ y) (F_ofZ m) (F_ofZ d) = Ok x ->
  @decimal_year1 (FOps lm) (F_ofZ y') (F_ofZ m') (F_ofZ d') = Ok x' ->
  SFleb x x' = true /\ ((m <> 2 \/ d <> 29)%Z -> SFltb x x' = true).
Proof. exact C124_order_proof. Qed.
Print Assumptions C124_double_decimal_year_order.

(** 31 December 1990 and 1 January 1991: two doubles, in this order; 29 February and 1 March 1996:
    the same double. *)
Example C124_case :
  valid_date 1990 12 31 /\ valid_date 1991 1 1 /\ date_lt 1990 12 31 1991 1 1 /\
  (exists x x', @decimal_year1 FL (F_ofZ 1990) (F_ofZ 12) (F_ofZ 31) = Ok x /\
     @decimal_year1 FL (F_ofZ 1991) (F_ofZ 1) (F_ofZ 1) = Ok x' /\ x' = F_ofZ 1991 /\ x <> F_ofZ 1991 /\ SFltb x x' = true) /\
  @decimal_year1 FL (F_ofZ 1996) (F_ofZ 2) (F_ofZ 29) = @decimal_year1 FL (F_ofZ 1996) (F_ofZ 3) (F_ofZ 1).
Proof.
  split; [split; cbn; lia|]. split; [split; cbn; lia|]. split; [left; lia|]. split; [|vm_compute; reflexivity].
  do 2 eexists. split; [vm_compute; reflexivity|]. split; [vm_compute; reflexivity|]. split; [vm_compute; reflexivity|].
  split; [vm_compute; discriminate|vm_compute; reflexivity].
Qed.
