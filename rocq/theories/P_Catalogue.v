(** Property C127: Weichert's method from the catalogue to the b-value. *)
From Coq Require Import String ZArith Arith Bool List Lia Reals Lra.
From Verif Require Import Base Ops BaseFacts RFacts SteppSpec Recurrence RecurrenceSpec CatalogueSpec CatalogueProofs.
Import ListNotations.
Local Open Scope R_scope.

(** C127.  recurrence_analysis with "Weichert", from the catalogue to the b-value: whenever it returns,
    b is, to the tolerance, the value under which the counts of the catalogue are most probable, and
    its error is that of the curvature there (up to a factor close to 1), where the bins have width d_m
    from the smallest magnitude (rounded to a tenth) on and end just above the largest, hold the events
    that no completeness row excludes, and were observed from their completeness year to the last
    year of the catalogue. *)
Theorem C127_catalogue_b_value : forall fuel (year mag : list R) (table : list (R * R)) d_m d_t ref b sb a sa,
  0 < d_m <= 1000 -> 0 < d_t -> length mag = length year -> year <> [] -> table <> [] ->
  (forall cy cm, In (cy, cm) table -> exists y, In y year /\ cy <= y) ->
  (forall m m', In m mag -> In m' mag -> m - m' <= 10000) ->
  @recurrence_analysis ROps fuel year mag table d_m "Weichert" ref d_t = Ok (b, sb, a, sa) ->
  exists rm ymin ymax mmin bins,
    Forall2 tenth mag rm /\ is_min ymin year /\ is_max ymax year /\ is_min mmin rm /\ (2 <= length bins)%nat /\
    (forall m, In m rm -> mmin <= m < mmin + INR (length bins) * d_m) /\
    (exists m, In m rm /\ mmin + INR (length bins) * d_m < m + 3 / 2 * d_m) /\
    (forall i x, nth_error bins i = Some x ->
       mb_mag x = mmin + (INR i + 1 / 2) * d_m /\
       mb_n x = count (counts_in ymin d_t mmin d_m table i) (combine year rm) /\
       exists cy, time_row table (mmin + INR i * d_m) cy /\ mb_time x = ymax - cy + 1) /\
    ((0 < bins_total bins)%nat -> exists best (L' : R -> R) d2 r,
       (forall beta, beta <> best -> counts_loglik bins beta < counts_loglik bins best) /\
       Rabs (b * ln 10 - best) <= 1 / 100000 /\
       (forall x, derivable_pt_lim (counts_loglik bins) x (L' x)) /\ derivable_pt_lim L' best d2 /\ d2 < 0 /\
       sb * ln 10 = r * sqrt (1 / - d2) /\
       let e := INR (length bins) * d_m / 100000 in exp (- e) <= r <= exp e).
Proof. exact C127_proof. Qed.
Print Assumptions C127_catalogue_b_value.

(** Six events of magnitude 5 and one of magnitude 6: it returns, and all hypotheses hold. *)
Example C127_case : exists fuel b sb a sa,
  @recurrence_analysis ROps fuel seven_years seven_mags [(2000, 5)] 1 "Weichert" 5 1 = Ok (b, sb, a, sa) /\
  length seven_mags = length seven_years /\
  (forall cy cm, In (cy, cm) [(2000, 5)] -> exists y, In y seven_years /\ cy <= y) /\
  (forall m m', In m seven_mags -> In m' seven_mags -> m - m' <= 10000).
Proof.
  destruct seven_returns as (fuel & b & sb & a & sa & E). exists fuel, b, sb, a, sa. split; [exact E|]. split; [reflexivity|]. split.
  - intros cy cm [Q|[]]. injection Q as <- <-. exists 2000. simpl. split; auto. lra.
  - assert (B : forall m, In m seven_mags -> 5 <= m <= 6) by (intros m I; simpl in I; repeat (destruct I as [<-|I]; [lra|]); contradiction).
    intros m m' I I'. apply B in I. apply B in I'. lra.
Qed.
