(** Arithmetic interface of the model, and its exact-real instance.
    Numeric code of /repo is written once over [Ops]; see DESIGN.md. *)
From Coq Require Import List Arith ZArith Bool Reals.
From Verif Require Import Base.
Import ListNotations.

(** The floating point operations and numpy/math functions that the code in
    mtoolkit/scientific and mtoolkit/geo applies to numbers. *)
Class Ops : Type := {
  T : Type;
  ofZ : Z -> T;                       (* integer to float *)
  add : T -> T -> T;
  sub : T -> T -> T;
  mul : T -> T -> T;
  div : T -> T -> T;
  neg : T -> T;
  absv : T -> T;
  ltb : T -> T -> bool;               (* <  *)
  leb : T -> T -> bool;               (* <= *)
  eqb : T -> T -> bool;               (* == *)
  sqrtv : T -> T;
  expv : T -> T;
  lnv : T -> T;
  log10v : T -> T;
  sinv : T -> T;
  cosv : T -> T;
  atan2v : T -> T -> T;               (* atan2(y, x) *)
  powv : T -> T -> T;                 (* x ** y, only used with x > 0 *)
  floorv : T -> T;
  ceilv : T -> T;
  rintv : T -> T;                     (* round half to even: np.around(x, 0) *)
  toZ : T -> Z;                       (* truncation: astype(int), int(x) *)
  piv : T
}.

Declare Scope num_scope.
Delimit Scope num_scope with num.
Infix "+" := add : num_scope.
Infix "-" := sub : num_scope.
Infix "*" := mul : num_scope.
Infix "/" := div : num_scope.
Notation "- x" := (neg x) : num_scope.
Infix "<?" := ltb : num_scope.
Infix "<=?" := leb : num_scope.
Infix "=?" := eqb : num_scope.
Notation "x >? y" := (ltb y x) (at level 70, only parsing) : num_scope.
Notation "x >=? y" := (leb y x) (at level 70, only parsing) : num_scope.

Section Derived.
Context {AR : Ops}.
Local Open Scope num_scope.

(** Decimal literal p/q: the correctly rounded quotient of two exactly representable
    integers, which is what a Python float literal such as 0.1238 denotes
    (all literals in mtoolkit/scientific have p, q < 2^53). *)
Definition lit (p q : Z) : T := ofZ p / ofZ q.

(** x ** 2. (numpy computes squares as a product). *)
Definition sq (x : T) : T := x * x.

(** x ** n for an integer-valued exponent n >= 0, as repeated multiplication.
    Simplification: libm's pow may differ in the last bit. *)
Fixpoint pown (x : T) (n : nat) : T :=
  match n with 0%nat => ofZ 1 | S n' => x * pown x n' end.

(** np.sum of a vector, as a left-to-right sum.  Simplification: numpy may use pairwise
    summation, which is the same over the reals. *)
Definition sumv (l : list T) : T := fold_left add l (ofZ 0).

(** np.cumsum. *)
Fixpoint cumsum_from (acc : T) (l : list T) : list T :=
  match l with [] => [] | x :: l' => (acc + x) :: cumsum_from (acc + x) l' end.
Definition cumsum (l : list T) : list T :=
  match l with [] => [] | x :: l' => x :: cumsum_from x l' end.

(** np.max / np.min of a vector; ValueError when empty.  (NaN propagation of numpy is
    not modelled: a NaN never wins a comparison here.) *)
Definition max2 (x y : T) : T := if x <? y then y else x.
Definition min2 (x y : T) : T := if y <? x then y else x.
Definition maxv (l : list T) : res T :=
  match l with [] => Err ValueError | x :: l' => Ok (fold_left max2 l' x) end.
Definition minv (l : list T) : res T :=
  match l with [] => Err ValueError | x :: l' => Ok (fold_left min2 l' x) end.

(** Count as a float: np.sum(mask) stored in or combined with a float array. *)
Definition ofnat (n : nat) : T := ofZ (Z.of_nat n).

(** np.arange(start, stop, step): ceil((stop-start)/step) values, the first two being
    start and start+step and the others start + i*delta with
    delta = (start+step)-start (numpy/core/src/multiarray/ctors.c). *)
Definition arange_len (start stop step : T) : nat :=
  Z.to_nat (toZ (ceilv ((stop - start) / step))).
Definition arange_at (start step : T) (i : nat) : T :=
  match i with
  | 0%nat => start
  | 1%nat => start + step
  | _ => start + ofnat i * ((start + step) - start)
  end.
Definition arange (start stop step : T) : list T :=
  map (arange_at start step) (seq 0 (arange_len start stop step)).

(** Successive differences x[1:] - x[:-1] (numpy.diff spelled with slices,
    mtoolkit/scientific/completeness.py:95,106-109). *)
Fixpoint diffs (l : list T) : list T :=
  match l with
  | x :: ((y :: _) as l') => (y - x) :: diffs l'
  | _ => []
  end.

End Derived.

(** ** Exact real instance *)

(** Floor as an integer. *)
Definition Rfloor (x : R) : Z := Int_part x.
(** Ceiling as an integer. *)
Definition Rceil (x : R) : Z := (- Int_part (- x))%Z.
(** Truncation towards zero: astype(int). *)
Definition Rtrunc (x : R) : Z := if Rle_dec 0 x then Rfloor x else Rceil x.
(** Nearest integer, ties to even: np.around(x) with no decimals. *)
Definition Rrint (x : R) : Z :=
  let f := Rfloor x in
  let d := (x - IZR f)%R in
  if Rlt_dec d (1/2) then f
  else if Rlt_dec (1/2) d then (f + 1)%Z
  else if Z.even f then f else (f + 1)%Z.
(** atan2(y, x), math convention. *)
Definition Ratan2 (y x : R) : R :=
  if Rlt_dec 0 x then atan (y / x)
  else if Rlt_dec x 0 then
         (if Rle_dec 0 y then (atan (y / x) + PI)%R else (atan (y / x) - PI)%R)
  else if Rlt_dec 0 y then (PI / 2)%R
  else if Rlt_dec y 0 then (- (PI / 2))%R
  else 0%R.
Definition Rltb (x y : R) : bool := if Rlt_dec x y then true else false.
Definition Rleb (x y : R) : bool := if Rle_dec x y then true else false.
Definition Reqb (x y : R) : bool := if Req_EM_T x y then true else false.
(** log10 over the reals. *)
Definition Rlog10 (x : R) : R := (ln x / ln 10)%R.

(** Exact real arithmetic. *)
Definition ROps : Ops := {|
  T := R;
  ofZ := IZR;
  add := Rplus;
  sub := Rminus;
  mul := Rmult;
  div := Rdiv;
  neg := Ropp;
  absv := Rabs;
  ltb := Rltb;
  leb := Rleb;
  eqb := Reqb;
  sqrtv := sqrt;
  expv := exp;
  lnv := ln;
  log10v := Rlog10;
  sinv := sin;
  cosv := cos;
  atan2v := Ratan2;
  powv := Rpower;
  floorv := fun x => IZR (Rfloor x);
  ceilv := fun x => IZR (Rceil x);
  rintv := fun x => IZR (Rrint x);
  toZ := Rtrunc;
  piv := PI
|}.
