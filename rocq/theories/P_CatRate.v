(** Property C146: Weichert's activity rate of a catalogue (recurrence.py:34-89, 221-369). *)
From Coq Require Import String List Reals Lra.
From Verif Require Import Base Ops RFacts SteppSpec Recurrence RecurrenceSpec CatalogueSpec CatalogueProofs CatRateSpec CatRateProofs.
Import ListNotations.
Local Open Scope R_scope.

(** C146.  From the catalogue to the rate: events per year above the smallest magnitude, carried to
    the reference magnitude with the b-value; the error is the rate over the root of the number. *)
Theorem C146_catalogue_rate : forall fuel (year mag : list R) (table : list (R * R)) d_m d_t ref b sb a sa,
  0 < d_m -> 0 < d_t -> length mag = length year -> year <> [] -> table <> [] ->
  (forall cy cm, In (cy, cm) table -> exists y, In y year /\ cy <= y) -> ref <> 0 ->
  @recurrence_analysis ROps fuel year mag table d_m "Weichert" ref d_t = Ok (b, sb, a, sa) ->
  exists mmin bins, catalogue_bins year mag table d_m d_t mmin bins /\ (forall x, In x bins -> 0 < mb_time x) /\
    ((0 < bins_total bins)%nat -> exists beta, Rabs (b * ln 10 - beta) <= 1 / 100000 /\
       a = yearly bins beta * exp (- (b * ln 10) * (ref - mmin)) /\ sa = a / sqrt (INR (bins_total bins))).
Proof. exact C146_proof. Qed.
Print Assumptions C146_catalogue_rate.

(** C146.  It lies between the counts over the longest and over the shortest observation time. *)
Theorem C146_rate_bounds : forall fuel (year mag : list R) (table : list (R * R)) d_m d_t ref b sb a sa,
  0 < d_m -> 0 < d_t -> length mag = length year -> year <> [] -> table <> [] ->
  (forall cy cm, In (cy, cm) table -> exists y, In y year /\ cy <= y) -> ref <> 0 ->
  @recurrence_analysis ROps fuel year mag table d_m "Weichert" ref d_t = Ok (b, sb, a, sa) ->
  exists mmin bins, catalogue_bins year mag table d_m d_t mmin bins /\
    ((0 < bins_total bins)%nat -> forall lo hi, 0 < lo -> (forall x, In x bins -> lo <= mb_time x <= hi) ->
       INR (bins_total bins) / hi <= a * exp (b * ln 10 * (ref - mmin)) <= INR (bins_total bins) / lo).
Proof. exact C146_bounds_proof. Qed.
Print Assumptions C146_rate_bounds.

(** C146.  With one completeness period the rate is exactly the number of events over its length. *)
Theorem C146_one_period : forall fuel (year mag : list R) cy cm d_m d_t ref b sb a sa,
  0 < d_m -> 0 < d_t -> length mag = length year -> (exists y, In y year /\ cy <= y) -> ref <> 0 ->
  @recurrence_analysis ROps fuel year mag [(cy, cm)] d_m "Weichert" ref d_t = Ok (b, sb, a, sa) ->
  exists mmin bins ymax, catalogue_bins year mag [(cy, cm)] d_m d_t mmin bins /\ is_max ymax year /\
    ((0 < bins_total bins)%nat ->
       a = INR (bins_total bins) / (ymax - cy + 1) * exp (- (b * ln 10) * (ref - mmin)) /\ sa = a / sqrt (INR (bins_total bins))).
Proof. exact C146_one_period_proof. Qed.
Print Assumptions C146_one_period.

(** Six events of magnitude 5 and one of magnitude 6, reference magnitude 5. *)
Example C146_case : (exists fuel b sb a sa,
  @recurrence_analysis ROps fuel seven_years seven_mags [(2000, 5)] 1 "Weichert" 5 1 = Ok (b, sb, a, sa)) /\
  (forall mmin bins, catalogue_bins seven_years seven_mags [(2000, 5)] 1 1 mmin bins -> (6 <= bins_total bins)%nat) /\
  length seven_mags = length seven_years /\ (exists y, In y seven_years /\ 2000 <= y) /\ (5 : R) <> 0.
Proof.
  split; [exact seven_returns|]. split; [exact seven_bins|]. split; [reflexivity|]. split; [exists 2000; simpl; split; auto; lra|lra].
Qed.
