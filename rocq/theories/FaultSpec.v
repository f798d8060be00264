(** Specifications for simple_fault.py, tectonic_region.py and fault_calculator.py. *)
From Coq Require Import String ZArith List Reals.
From Verif Require Import Base Ops RFacts CatUtil.
Import ListNotations.
Local Open Scope R_scope.

(** Anderson and Luco (1983), type 1: yearly number of earthquakes above magnitude m on a fault
    slipping [slip] mm/yr, with moment scaling log10 M0 = c + d m and moment slip parameter
    [beta]. *)
Definition anderson_luco (b d slip beta mmax m : R) : R :=
  (d - b) / b * (slip / 10 / beta) * Rpower 10 (b * (mmax - m)) * Rpower 10 (- (d / 2) * mmax).

(** Moment slip parameter from the displacement to length ratio, the shear modulus in units of
    1e10 dyn/cm2 and the fault width in km. *)
Definition moment_slip (dlr mu width c : R) : R :=
  sqrt (dlr * Rpower 10 c / (mu * 10000000000 * (width * 100000))).

(** Great circle distance between two (longitude, latitude) points, km (see C28). *)
Definition gc_dist (p q : R * R) : R :=
  let k := PI / 180 in
  6371 * acos (sin (k * snd p) * sin (k * snd q)
               + cos (k * snd p) * cos (k * snd q) * cos (k * (fst p - fst q))).

(** Length of a polygonal line. *)
Fixpoint path_length (l : list (R * R)) : R :=
  match l with
  | p :: ((q :: _) as l') => gc_dist p q + path_length l'
  | _ => 0
  end.

(** Parameters that describe a fault. *)
Definition fault_ok (trace : list (R * R)) (upp low dip : R) : Prop :=
  (2 <= length trace)%nat /\
  (forall p, In p trace -> -180 <= fst p <= 180 /\ -90 <= snd p <= 90) /\
  0 <= upp < low /\ 0 < dip <= 90.

(** A list of values with one weight each, the weights summing to one. *)
Definition weighted {A : Type} (values : list A) (weights : list R) : Prop :=
  length values = length weights /\ weights <> [] /\ Rsum weights = 1.
