(** Specification of C112: seismic moment in cgs units. *)
From Coq Require Import Reals.
Local Open Scope R_scope.

(** Seismic moment of an earthquake of magnitude m, log10 M0 = c + d m. *)
Definition seismic_moment (c d m : R) : R := Rpower 10 (c + d * m).

(** Moment accumulated per year by [slip] mm/yr on a rectangle of the given width (km) and length
    (cm), with the shear modulus in units of 1e10 dyn/cm2. *)
Definition accumulation (mu width length slip : R) : R :=
  mu * 10000000000 * (width * 100000) * length * (slip / 10).

(** Length (cm) of the rupture of the whole width whose moment is that of magnitude m when its
    displacement is [ratio] times its length. *)
Definition rupture_length (ratio mu width c d m : R) : R :=
  sqrt (seismic_moment c d m / (ratio * (mu * 10000000000 * (width * 100000)))).
