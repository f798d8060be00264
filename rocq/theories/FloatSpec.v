(** Numbers of at most twelve significant digits. *)
From Coq Require Import ZArith Bool Reals.
From Coq Require Import Floats.SpecFloat.
From Flocq Require Import Core IEEE754.BinarySingleNaN.
From Verif Require Import Ops FloatOps.
Local Open Scope R_scope.

Definition powers_of_ten : radix := Build_radix 10 eq_refl.

(** The double nearest to a real number, ties to even; exact for reals within the range of the
    doubles. *)
Definition nearest64 (r : R) : R := round radix2 (FLT_exp (-1074) 53) ZnearestE r.

(** A zero, or the double nearest to M * 10^E where M has at most twelve digits and the exponent is
    away from the ends of the range of the doubles. *)
Definition twelve_digits (x : spec_float) : Prop :=
  (exists s, x = S754_zero s) \/
  SpecFloat.valid_binary prec64 emax64 x = true /\ is_finite_SF x = true /\
  exists M E, (M <> 0 /\ -10 ^ 12 < M < 10 ^ 12 /\ -300 <= E <= 290)%Z /\
    SF2R radix2 x = nearest64 (IZR M * bpow powers_of_ten E).

(** Zero, or the double nearest to a decimal with at most five places and less than 10^7 in
    absolute value. *)
Definition five_places (x : spec_float) : Prop :=
  x = S754_zero false \/
  SpecFloat.valid_binary prec64 emax64 x = true /\ is_finite_SF x = true /\
  exists z, (z <> 0 /\ Z.abs z < 10 ^ 12)%Z /\ SF2R radix2 x = nearest64 (IZR z / 100000).
