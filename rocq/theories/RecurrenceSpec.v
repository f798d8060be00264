(** Specification vocabulary for the recurrence properties C35-C43: magnitude grids, the
    likelihood of a truncated exponential magnitude distribution, weighted means.  Written
    from the descriptions of the methods, not from the code. *)
From Coq Require Import ZArith Arith Bool List Reals.
From Verif Require Import Ops RFacts SteppSpec.
Import ListNotations.
Local Open Scope R_scope.

(** x is in bin k, half open, of the grid starting at lo with width w. *)
Definition bin_of (lo w : R) (k : nat) (x : R) : bool :=
  (Rleb (lo + INR k * w) x && Rltb x (lo + INR (k + 1) * w))%bool.

(** lo is the smallest value rounded down to a tenth. *)
Definition tenth_below (xs : list R) (lo : R) : Prop :=
  exists m z, is_min m xs /\ lo = IZR z / 10 /\ lo <= m < lo + 1 / 10.

(** Sum and mean over (value, weight) pairs. *)
Definition wsum (f : R -> R) (ev : list (R * R)) : R :=
  Rsum (map (fun p => snd p * f (fst p)) ev).
Definition wtotal (ev : list (R * R)) : R := Rsum (map snd ev).
Definition wmean (ev : list (R * R)) : R := wsum (fun m => m) ev / wtotal ev.

(** Log-likelihood of exponentially distributed magnitudes above m0 (Aki 1965). *)
Definition exp_loglik (m0 beta : R) (ev : list (R * R)) : R :=
  wsum (fun m => ln beta - beta * (m - m0)) ev.

(** r is x rounded to one decimal (to the nearest; ties unspecified). *)
Definition tenth (x r : R) : Prop :=
  (exists z : Z, r = IZR z / 10) /\ Rabs (r - x) <= 1 / 20.

(** Start of the bin of x in the grid with origin lo and width w. *)
Definition bin_start (lo w x : R) : R := lo + IZR (Rfloor ((x - lo) / w)) * w.

(** A (year, magnitude) event counts in magnitude bin i of Weichert's table: it is in the
    bin, and for no completeness row both its time bin and its magnitude bin start before
    the row's year and magnitude. *)
Definition counts_in (ymin d_t mmin d_m : R) (table : list (R * R)) (i : nat) (e : R * R) : bool :=
  (bin_of mmin d_m i (snd e) &&
   forallb (fun row => negb (Rltb (bin_start ymin d_t (fst e)) (fst row) &&
                             Rltb (mmin + INR i * d_m) (snd row))) table)%bool.

(** Row whose year gives the observation time of the bin starting at mg: the last one whose
    magnitude is at or below mg (to 0.001), else the last one of the table. *)
Definition time_row (table : list (R * R)) (mg : R) (cy : R) : Prop :=
  exists k cm, nth_error table k = Some (cy, cm) /\
    ((cm - mg < 1 / 1000 /\
      forall k' r', (k < k')%nat -> nth_error table k' = Some r' -> 1 / 1000 <= snd r' - mg) \/
     ((forall r, In r table -> 1 / 1000 <= snd r - mg) /\ (k + 1 = length table)%nat)).

(** ** Weichert (1980) *)

(** Moment k of the expected numbers at beta, for bins (duration, magnitude). *)
Definition wmom (k : nat) (bins : list (R * R)) (beta : R) : R :=
  Rsum (map (fun p => fst p * (snd p) ^ k * exp (- beta * snd p)) bins).

(** Multinomial log-likelihood of the observed counts, up to a constant: total counts N and
    weighted magnitudes sum n_i m_i. *)
Definition weichert_loglik (bins : list (R * R)) (N S : R) (beta : R) : R :=
  - N * ln (wmom 0 bins beta) - beta * S.

(** Mean magnitude expected at beta. *)
Definition wmu (bins : list (R * R)) (beta : R) : R := wmom 1 bins beta / wmom 0 bins beta.
