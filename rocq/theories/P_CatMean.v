(** Property C147: Weichert's b-value of a catalogue and its mean magnitude (recurrence.py:34-89, 221-369). *)
From Coq Require Import String List Reals Lra.
From Verif Require Import Base Ops RFacts SteppSpec Recurrence RecurrenceSpec CatalogueSpec CatalogueProofs CatRateSpec CatRateProofs
  CatMeanSpec CatMeanProofs.
Import ListNotations.
Local Open Scope R_scope.

(** C147.  The sign of b: positive when the counted events are on average smaller than the bins
    weighted by their observation times, negative when they are larger, by the stated amounts. *)
Theorem C147_sign : forall fuel (year mag : list R) (table : list (R * R)) d_m d_t ref b sb a sa,
  0 < d_m <= 1000 -> 0 < d_t -> length mag = length year -> year <> [] -> table <> [] ->
  (forall cy cm, In (cy, cm) table -> exists y, In y year /\ cy <= y) ->
  (forall m m', In m mag -> In m' mag -> m - m' <= 10000) ->
  @recurrence_analysis ROps fuel year mag table d_m "Weichert" ref d_t = Ok (b, sb, a, sa) ->
  exists mmin bins, catalogue_bins year mag table d_m d_t mmin bins /\ (forall x, In x bins -> 0 < mb_time x) /\
    ((0 < bins_total bins)%nat ->
       let d := time_mean bins - counted_mean bins in let w := centre_range bins d_m in
       (0 <= d -> 4 * d / (w * w) - 1 / 100000 <= b * ln 10) /\
       (d <= 0 -> b * ln 10 <= 4 * d / (w * w) + 1 / 100000)).
Proof. exact C147_proof. Qed.
Print Assumptions C147_sign.

(** C147.  With one completeness period what counts is the middle of the magnitude range. *)
Theorem C147_sign_one_period : forall fuel (year mag : list R) cy cm d_m d_t ref b sb a sa,
  0 < d_m <= 1000 -> 0 < d_t -> length mag = length year -> (exists y, In y year /\ cy <= y) ->
  (forall m m', In m mag -> In m' mag -> m - m' <= 10000) ->
  @recurrence_analysis ROps fuel year mag [(cy, cm)] d_m "Weichert" ref d_t = Ok (b, sb, a, sa) ->
  exists mmin bins, catalogue_bins year mag [(cy, cm)] d_m d_t mmin bins /\
    ((0 < bins_total bins)%nat ->
       let d := mmin + INR (length bins) * d_m / 2 - counted_mean bins in let w := centre_range bins d_m in
       (0 <= d -> 4 * d / (w * w) - 1 / 100000 <= b * ln 10) /\
       (d <= 0 -> b * ln 10 <= 4 * d / (w * w) + 1 / 100000)).
Proof. exact C147_one_period_proof. Qed.
Print Assumptions C147_sign_one_period.

(** C147.  Of two catalogues on the same bins the one with the larger mean has the smaller b. *)
Theorem C147_larger_mean_smaller_b :
  forall fuel1 fuel2 (year1 mag1 year2 mag2 : list R) (table1 table2 : list (R * R)) d_m d_t1 d_t2 ref1 ref2
    b1 sb1 a1 sa1 b2 sb2 a2 sa2,
  0 < d_m <= 1000 -> 0 < d_t1 -> 0 < d_t2 -> length mag1 = length year1 -> length mag2 = length year2 ->
  year1 <> [] -> year2 <> [] -> table1 <> [] -> table2 <> [] ->
  (forall cy cm, In (cy, cm) table1 -> exists y, In y year1 /\ cy <= y) ->
  (forall cy cm, In (cy, cm) table2 -> exists y, In y year2 /\ cy <= y) ->
  (forall m m', In m mag1 -> In m' mag1 -> m - m' <= 10000) ->
  (forall m m', In m mag2 -> In m' mag2 -> m - m' <= 10000) ->
  @recurrence_analysis ROps fuel1 year1 mag1 table1 d_m "Weichert" ref1 d_t1 = Ok (b1, sb1, a1, sa1) ->
  @recurrence_analysis ROps fuel2 year2 mag2 table2 d_m "Weichert" ref2 d_t2 = Ok (b2, sb2, a2, sa2) ->
  exists mmin1 bins1 mmin2 bins2,
    catalogue_bins year1 mag1 table1 d_m d_t1 mmin1 bins1 /\ catalogue_bins year2 mag2 table2 d_m d_t2 mmin2 bins2 /\
    (map mb_time bins1 = map mb_time bins2 -> map mb_mag bins1 = map mb_mag bins2 ->
     (0 < bins_total bins1)%nat -> (0 < bins_total bins2)%nat -> counted_mean bins1 <= counted_mean bins2 ->
     let w := centre_range bins1 d_m in
     b2 * ln 10 + 4 * (counted_mean bins2 - counted_mean bins1) / (w * w) <= b1 * ln 10 + 2 / 100000).
Proof. exact C147_compare_proof. Qed.
Print Assumptions C147_larger_mean_smaller_b.

(** Six events of magnitude 5 and one of magnitude 6: it returns, and all hypotheses hold. *)
Example C147_case : (exists fuel b sb a sa,
  @recurrence_analysis ROps fuel seven_years seven_mags [(2000, 5)] 1 "Weichert" 5 1 = Ok (b, sb, a, sa)) /\
  (forall mmin bins, catalogue_bins seven_years seven_mags [(2000, 5)] 1 1 mmin bins -> (6 <= bins_total bins)%nat) /\
  length seven_mags = length seven_years /\ (exists y, In y seven_years /\ 2000 <= y) /\
  (forall m m', In m seven_mags -> In m' seven_mags -> m - m' <= 10000).
Proof.
  split; [exact seven_returns|]. split; [exact seven_bins|]. split; [reflexivity|]. split; [exists 2000; simpl; split; auto; lra|].
  assert (B : forall m, In m seven_mags -> 5 <= m <= 6) by (intros m I; simpl in I; repeat (destruct I as [<-|I]; [lra|]); contradiction).
  intros m m' I I'. apply B in I. apply B in I'. lra.
Qed.

(** For them the statement says that b ln 10 is at least 10/7, up to the tolerance. *)
Example C147_value : forall fuel b sb a sa,
  @recurrence_analysis ROps fuel seven_years seven_mags [(2000, 5)] 1 "Weichert" 5 1 = Ok (b, sb, a, sa) -> 10 / 7 - 1 / 100000 <= b * ln 10.
Proof. exact seven_b. Qed.

(** Counts of such a catalogue and of one with more large events: the means differ. *)
Example C147_means : let t := 21 in
  let falling := [mkBin t (11 / 2) 6; mkBin t (13 / 2) 1] in let rising := [mkBin t (11 / 2) 1; mkBin t (13 / 2) 6] in
  counted_mean falling = 11 / 2 + 1 / 7 /\ counted_mean rising = 11 / 2 + 6 / 7 /\ time_mean falling = 6.
Proof. cbv zeta. unfold counted_mean, time_mean, Rsum. simpl. repeat split; field. Qed.
