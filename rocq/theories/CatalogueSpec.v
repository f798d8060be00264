(** Likelihood of a binned catalogue (C127), from Weichert (1980): with bins of duration t, centre m
    and n observed events, an event falls into a bin with probability t exp(-beta m) / sum. *)
From Coq Require Import List Reals.
From Verif Require Import RFacts.
Import ListNotations.
Local Open Scope R_scope.

Record mbin : Type := mkBin { mb_time : R; mb_mag : R; mb_n : nat }.

Definition expected (beta : R) (x : mbin) : R := mb_time x * exp (- beta * mb_mag x).

Definition bin_probability (bins : list mbin) (beta : R) (x : mbin) : R :=
  expected beta x / Rsum (map (expected beta) bins).

(** The logarithm of the probability of the observed counts, up to the number of arrangements. *)
Definition counts_loglik (bins : list mbin) (beta : R) : R :=
  Rsum (map (fun x => INR (mb_n x) * ln (bin_probability bins beta x)) bins).

Definition bins_total (bins : list mbin) : nat := fold_right (fun x s => (mb_n x + s)%nat) 0%nat bins.
