(** One executable C mathematical library for binary64: exp, log, log10, sin, cos, atan2 and
    pow, computed in fixed point with 96 fractional bits and rounded to nearest.  No theorem
    depends on it: it serves to run the model on concrete catalogues (examples, counterexamples
    and Fidelity*.v).  /repo takes these functions from math, numpy and scipy. *)
From Coq Require Import ZArith List Bool.
From Coq Require Import Floats.SpecFloat.
From Verif Require Import Base Ops FloatOps.
Local Open Scope Z_scope.

(** Fractional bits of the fixed point numbers. *)
Definition fb : Z := 96.
Definition one : Z := Eval vm_compute in 2 ^ 96.
Definition fmul (a b : Z) : Z := Z.shiftr (a * b) fb.
Definition fdiv (a b : Z) : Z := (a * one) / b.

(** Fixed point to double, nearest. *)
Definition of_fixed (v : Z) : spec_float := binary_normalize prec64 emax64 v (- fb) false.

(** A finite double in fixed point (truncated). *)
Definition to_fixed (s : bool) (m : positive) (e : Z) : Z :=
  let v := Z.shiftl (Z.pos m) (e + fb) in if s then - v else v.

(** Position of the leading bit: 2^(mag-1) <= |x| < 2^mag. *)
Definition mag (m : positive) (e : Z) : Z := Z.log2 (Z.pos m) + 1 + e.

(** sum_{k >= 0} t u^k / (first + 2 k), stopping when the terms vanish. *)
Fixpoint odd_series (n : nat) (t u d : Z) : Z :=
  match n with
  | 0%nat => 0
  | S n' => if t =? 0 then 0 else t / d + odd_series n' (fmul t u) u (d + 2)
  end.
(** atanh t and atan t for small |t|. *)
Definition atanh_small (t : Z) : Z := odd_series 200 t (fmul t t) 1.
Definition atan_small (t : Z) : Z := odd_series 200 t (- fmul t t) 1.

Definition LN2 : Z := Eval vm_compute in 2 * atanh_small (one / 3).
Definition LN10 : Z := Eval vm_compute in 3 * LN2 + 2 * atanh_small (one / 9).
Definition PI_fix : Z := Eval vm_compute in 16 * atan_small (one / 5) - 4 * atan_small (one / 239).

(** sum_{k >= 0} t u^k / (d (d+1) ...), the exponential type series: the next term is
    t * u / (d * (d + s)). *)
Fixpoint fact_series (n : nat) (t u d : Z) (both : bool) : Z :=
  match n with
  | 0%nat => 0
  | S n' =>
      if t =? 0 then 0
      else t + (if both then fact_series n' (fmul t u / (d * (d + 1))) u (d + 2) both
                else fact_series n' (fmul t u / d) u (d + 1) both)
  end.

(** exp of a fixed point number as (mantissa, exponent of two). *)
Definition exp_fixed (v : Z) : Z * Z :=
  let k := v / LN2 in
  let r := v - k * LN2 in
  let q := fact_series 100 one (Z.shiftr r 4) 1 false in
  let q := fmul q q in let q := fmul q q in let q := fmul q q in (fmul q q, k).

(** ln of the positive number m 2^e. *)
Definition ln_fixed (m : positive) (e : Z) : Z :=
  let l := Z.log2 (Z.pos m) in
  let f := Z.shiftl (Z.pos m) (fb - l) in          (* 1 <= f < 2 *)
  let (f, k) := if 3 * one <? 2 * f then (f / 2, l + e + 1) else (f, l + e) in
  k * LN2 + 2 * atanh_small (fdiv (f - one) (f + one)).

Definition L_exp (x : spec_float) : spec_float :=
  match x with
  | S754_nan => S754_nan
  | S754_zero _ => F_ofZ 1
  | S754_infinity true => S754_zero false
  | S754_infinity false => x
  | S754_finite s m e =>
      if 11 <? mag m e then (if s then S754_zero false else S754_infinity false)
      else if mag m e <? -70 then F_ofZ 1
      else let (q, k) := exp_fixed (to_fixed s m e) in
           binary_normalize prec64 emax64 q (k - fb) false
  end.

Definition L_ln (x : spec_float) : spec_float :=
  match x with
  | S754_nan => S754_nan
  | S754_zero _ => S754_infinity true
  | S754_infinity true => S754_nan
  | S754_infinity false => x
  | S754_finite true _ _ => S754_nan
  | S754_finite false m e => of_fixed (ln_fixed m e)
  end.

Definition L_log10 (x : spec_float) : spec_float :=
  match x with
  | S754_finite false m e => of_fixed (fdiv (ln_fixed m e) LN10)
  | _ => L_ln x
  end.

(** Quadrant of x and what is left of it, |rest| <= pi/4. *)
Definition quadrant (v : Z) : Z * Z :=
  let h := PI_fix / 2 in
  let k := (v + h / 2) / h in (k mod 4, v - k * h).
Definition sin_small (r : Z) : Z := fact_series 60 r (- fmul r r) 2 true.
Definition cos_small (r : Z) : Z := fact_series 60 one (- fmul r r) 1 true.

(** Arguments above 2^60 are not reduced (NaN). *)
Definition L_sin (x : spec_float) : spec_float :=
  match x with
  | S754_finite s m e =>
      if mag m e <? -60 then x
      else if 60 <? mag m e then S754_nan
      else let (k, r) := quadrant (to_fixed s m e) in
           of_fixed (match k with 0 => sin_small r | 1 => cos_small r
                                | 2 => - sin_small r | _ => - cos_small r end)
  | S754_zero _ => x
  | _ => S754_nan
  end.
Definition L_cos (x : spec_float) : spec_float :=
  match x with
  | S754_finite s m e =>
      if mag m e <? -60 then F_ofZ 1
      else if 60 <? mag m e then S754_nan
      else let (k, r) := quadrant (to_fixed s m e) in
           of_fixed (match k with 0 => cos_small r | 1 => - sin_small r
                                | 2 => - cos_small r | _ => sin_small r end)
  | S754_zero _ => F_ofZ 1
  | _ => S754_nan
  end.

(** atan t for 0 <= t <= 1: two halvings, then the series. *)
Definition half_angle (t : Z) : Z := fdiv t (one + Z.sqrt ((one + fmul t t) * one)).
Definition atan_unit (t : Z) : Z := 4 * atan_small (half_angle (half_angle t)).

(** atan2(y, x); infinities are not distinguished further (NaN). *)
Definition L_atan2 (y x : spec_float) : spec_float :=
  let flip (s : bool) v := of_fixed (if s then - v else v) in
  match y, x with
  | S754_zero s, (S754_zero false | S754_finite false _ _) => S754_zero s
  | S754_zero s, (S754_zero true | S754_finite true _ _) => flip s PI_fix
  | S754_finite s _ _, S754_zero _ => flip s (PI_fix / 2)
  | S754_finite sy my ey, S754_finite sx mx ex =>
      if (mag my ey - mag mx ex <? -50) && negb sx then SFdiv prec64 emax64 y x
      else
        let e := Z.min ey ex in
        let a := Z.shiftl (Z.pos my) (ey - e) in
        let b := Z.shiftl (Z.pos mx) (ex - e) in
        let t := if a <=? b then atan_unit (fdiv a b)
                 else PI_fix / 2 - atan_unit (fdiv b a) in
        flip sy (if sx then PI_fix - t else t)
  | _, _ => S754_nan
  end.

(** x ** y for x > 0 (the only use in /repo); NaN for negative x. *)
Definition L_pow (x y : spec_float) : spec_float :=
  match x, y with
  | _, S754_zero _ => F_ofZ 1
  | S754_finite false mx ex, S754_finite sy my ey =>
      let l := ln_fixed mx ex in
      let v := Z.shiftl (Z.pos my * l) ey in
      let v := if sy then - v else v in
      if Z.abs v <? 2000 * one
      then let (q, k) := exp_fixed v in binary_normalize prec64 emax64 q (k - fb) false
      else if v <? 0 then S754_zero false else S754_infinity false
  | S754_zero _, S754_finite false _ _ => S754_zero false
  | S754_zero _, S754_finite true _ _ => S754_infinity false
  | _, _ => S754_nan
  end.

(** The library. *)
Definition L : libm := mkLibm L_exp L_ln L_log10 L_sin L_cos L_atan2 L_pow.
