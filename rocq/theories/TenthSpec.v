(** Magnitudes given to one decimal, as doubles (C122, C123). *)
From Coq Require Import ZArith List Bool.
From Coq Require Import Floats.SpecFloat.
From Verif Require Import Base Ops FloatOps.

(** The double nearest to z/10: what float() makes of a number written with one decimal. *)
Definition F_tenth (z : Z) : spec_float := SFdiv prec64 emax64 (F_ofZ z) (F_ofZ 10).

(** The double nearest to z/10 - 0.05, half a tenth below. *)
Definition F_half_below (z : Z) : spec_float := SFdiv prec64 emax64 (F_ofZ (10 * z - 5)) (F_ofZ 100).

(** The number of elements equal to z. *)
Definition how_many (z : Z) (l : list Z) : nat := length (filter (Z.eqb z) l).

Definition smallest (z : Z) (l : list Z) : Prop := In z l /\ forall x, In x l -> (z <= x)%Z.

(** Events and completeness rows are (year, magnitude in tenths) pairs. *)

(** A row covers an event from its year on, or from its magnitude on. *)
Definition covers (row e : Z * Z) : bool := Z.leb (fst row) (fst e) || Z.leb (snd row) (snd e).

(** The same, but above its magnitude. *)
Definition covers_above (row e : Z * Z) : bool := Z.leb (fst row) (fst e) || Z.ltb (snd row) (snd e).

(** The events of magnitude z/10 that every row covers. *)
Definition covered_at (cov : Z * Z -> Z * Z -> bool) (rows : list (Z * Z)) (z : Z) (evs : list (Z * Z)) : nat :=
  length (filter (fun e => Z.eqb z (snd e) && forallb (fun row => cov row e) rows) evs).

(** The events that every row covers. *)
Definition covered (cov : Z * Z -> Z * Z -> bool) (rows evs : list (Z * Z)) : nat :=
  length (filter (fun e => forallb (fun row => cov row e) rows) evs).
