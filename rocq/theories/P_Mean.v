(** Property C137: Weichert's b-value against the mean magnitude (recurrence.py:315-369). *)
From Coq Require Import List Reals Lra.
From Verif Require Import Base Ops RFacts Recurrence MeanSpec MeanProofs.
Import ListNotations.
Local Open Scope R_scope.

(** The catalogue with the larger mean magnitude has the smaller b-value, by at least the stated amount. *)
Theorem C137_larger_mean_smaller_b :
  forall fuel1 fuel2 (tper fmag nobs1 nobs2 : list R) f0 f1 rest lo hi mrate1 mrate2 beta1 beta2 itstab
    b1 sb1 a1 sa1 b2 sb2 a2 sa2,
  fmag = f0 :: f1 :: rest -> f0 <> f1 ->
  length tper = length fmag -> (forall t, In t tper -> 0 < t) -> 0 < Rsum nobs1 -> 0 < Rsum nobs2 ->
  (forall m, In m fmag -> lo <= m <= hi) -> (hi - lo) * itstab <= 3 / 10 ->
  @weichert ROps fuel1 tper fmag nobs1 mrate1 beta1 itstab = Ok (b1, sb1, a1, sa1) ->
  @weichert ROps fuel2 tper fmag nobs2 mrate2 beta2 itstab = Ok (b2, sb2, a2, sa2) ->
  mean_of nobs1 fmag <= mean_of nobs2 fmag ->
  b2 * ln 10 + 4 * (mean_of nobs2 fmag - mean_of nobs1 fmag) / ((hi - lo) * (hi - lo)) <= b1 * ln 10 + 2 * itstab.
Proof. exact C137_proof. Qed.
Print Assumptions C137_larger_mean_smaller_b.

(** The sign: positive when the events are smaller on average than the bins, weighted by duration. *)
Theorem C137_sign_of_b : forall fuel (tper fmag nobs : list R) f0 f1 rest lo hi mrate beta itstab b sb a sa,
  fmag = f0 :: f1 :: rest -> f0 <> f1 ->
  length tper = length fmag -> (forall t, In t tper -> 0 < t) -> 0 < Rsum nobs ->
  (forall m, In m fmag -> lo <= m <= hi) -> (hi - lo) * itstab <= 3 / 10 ->
  @weichert ROps fuel tper fmag nobs mrate beta itstab = Ok (b, sb, a, sa) ->
  let d := mean_of tper fmag - mean_of nobs fmag in
  (0 <= d -> 4 * d / ((hi - lo) * (hi - lo)) - itstab <= b * ln 10) /\
  (d <= 0 -> b * ln 10 <= 4 * d / ((hi - lo) * (hi - lo)) + itstab).
Proof. exact C137_sign_proof. Qed.
Print Assumptions C137_sign_of_b.

(** Counts that fall with magnitude and counts that rise: both return. *)
Example C137_case : exists fuel1 fuel2 beta1 beta2 b1 sb1 a1 sa1 b2 sb2 a2 sa2,
  @weichert ROps fuel1 [20; 20; 20] [5; 6; 7] [100; 10; 1] 5 beta1 (1 / 100000) = Ok (b1, sb1, a1, sa1) /\
  @weichert ROps fuel2 [20; 20; 20] [5; 6; 7] [10; 20; 30] 5 beta2 (1 / 100000) = Ok (b2, sb2, a2, sa2) /\
  mean_of [100; 10; 1] [5; 6; 7] = 567 / 111 /\ mean_of [10; 20; 30] [5; 6; 7] = 380 / 60 /\ mean_of [20; 20; 20] [5; 6; 7] = 6.
Proof. exact C137_case_proof. Qed.
