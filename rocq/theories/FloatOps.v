(** The binary64 instance of the arithmetic interface (IEEE 754 double precision, round to
    nearest even: the Python float and numpy float64 of /repo).  It is built on the standard
    library's executable specification SpecFloat and uses no axiom.  The functions of the C
    mathematical library are parameters: theorems about [FOps] hold whatever their values. *)
From Coq Require Import ZArith List Bool.
From Coq Require Import Floats.SpecFloat.
From Verif Require Import Base Ops.
Local Open Scope Z_scope.

(** Precision and exponent range of the Python float. *)
Definition prec64 : Z := 53.
Definition emax64 : Z := 1024.

(** float(z): nearest double. *)
Definition F_ofZ (z : Z) : spec_float := binary_normalize prec64 emax64 z 0 false.

(** Integer part of |x| for a finite x with mantissa m and exponent e, and whether anything is
    left: x = (q + r / 2^(-e)) * 2^max(e,0). *)
Definition F_split (m : positive) (e : Z) : Z * Z * Z :=
  if 0 <=? e then (Z.pos m * 2 ^ e, 0, 1)
  else let d := 2 ^ (- e) in (Z.pos m / d, Z.pos m mod d, d).

(** An integral double with the sign of x (so that floor(-0.0) and ceil(-0.5) are -0.0). *)
Definition F_int (s : bool) (z : Z) : spec_float :=
  if z =? 0 then S754_zero s else F_ofZ z.

(** Apply a rounding of |x| = q + r/d to x; the sign of x is given to the rounding. *)
Definition F_round (rnd : bool -> Z -> Z -> Z -> Z) (x : spec_float) : spec_float :=
  match x with
  | S754_finite s m e =>
      let '(q, r, d) := F_split m e in
      let a := rnd s q r d in
      F_int s (if s then - a else a)
  | _ => x
  end.

(** np.floor, np.ceil and np.around(x, 0) (round half to even). *)
Definition F_floor : spec_float -> spec_float :=
  F_round (fun s q r _ => if s then (if r =? 0 then q else q + 1) else q).
Definition F_ceil : spec_float -> spec_float :=
  F_round (fun s q r _ => if s then q else (if r =? 0 then q else q + 1)).
Definition F_rint : spec_float -> spec_float :=
  F_round (fun _ q r d =>
    match (2 * r) ?= d with
    | Lt => q
    | Gt => q + 1
    | Eq => if Z.even q then q else q + 1
    end).

(** int(x): truncation; 0 stands for the values on which Python raises (NaN, infinities). *)
Definition F_toZ (x : spec_float) : Z :=
  match x with
  | S754_finite s m e => let '(q, _, _) := F_split m e in if s then - q else q
  | _ => 0
  end.

(** The functions of the C mathematical library used by the code. *)
Record libm : Type := mkLibm {
  lm_exp : spec_float -> spec_float;
  lm_ln : spec_float -> spec_float;
  lm_log10 : spec_float -> spec_float;
  lm_sin : spec_float -> spec_float;
  lm_cos : spec_float -> spec_float;
  lm_atan2 : spec_float -> spec_float -> spec_float;
  lm_pow : spec_float -> spec_float -> spec_float }.

(** math.pi, 0x1.921fb54442d18p+1. *)
Definition F_pi : spec_float := S754_finite false 7074237752028440 (-51).

Definition FOps (lm : libm) : Ops := {|
  T := spec_float;
  ofZ := F_ofZ;
  add := SFadd prec64 emax64;
  sub := SFsub prec64 emax64;
  mul := SFmul prec64 emax64;
  div := SFdiv prec64 emax64;
  neg := SFopp;
  absv := SFabs;
  ltb := SFltb;
  leb := SFleb;
  eqb := SFeqb;
  sqrtv := SFsqrt prec64 emax64;
  expv := lm_exp lm;
  lnv := lm_ln lm;
  log10v := lm_log10 lm;
  sinv := lm_sin lm;
  cosv := lm_cos lm;
  atan2v := lm_atan2 lm;
  powv := lm_pow lm;
  floorv := F_floor;
  ceilv := F_ceil;
  rintv := F_rint;
  toZ := F_toZ;
  piv := F_pi
|}.
