(** Properties C35-C43 and C89-C93: recurrence.py. *)
From Coq Require Import String ZArith Arith Bool List Lia Reals Lra.
From Verif Require Import Base Ops BaseFacts RFacts SteppSpec Completeness Recurrence RecurrenceSpec
  SteppProofs RecurrenceProofs WeichertProofs WeichertNewton WeichertLocal WeichertGlobal RecurrenceMore.
Import ListNotations.
Local Open Scope R_scope.

(** C35.  The recurrence table: bins from the smallest magnitude rounded down to a tenth, the
    number of events in each, at or above each, and these per year; every event is in exactly
    one bin and the first cumulative number counts them all. *)
Theorem C35_recurrence_table : forall (mag year : list R) dmag, 0 < dmag -> mag <> [] -> year <> [] ->
  exists tab lo first last,
    @recurrence_table ROps mag dmag year = Ok tab /\
    tenth_below mag lo /\ is_min first year /\ is_max last year /\
    (forall k row, nth_error tab k = Some row ->
       rc_mag row = lo + (INR k + 1 / 2) * dmag /\
       rc_n row = INR (count (bin_of lo dmag k) mag) /\
       rc_cum row = INR (count (fun m => Rleb (lo + INR k * dmag) m) mag) /\
       rc_n_annual row = rc_n row / (last - first + 1) /\
       rc_cum_annual row = rc_cum row / (last - first + 1)) /\
    (exists row, nth_error tab 0 = Some row /\ rc_cum row = INR (length mag)) /\
    (forall m, In m mag -> exists k, (k < length tab)%nat /\ bin_of lo dmag k m = true /\
       forall k', bin_of lo dmag k' m = true -> k' = k).
Proof. exact C35_proof. Qed.
Print Assumptions C35_recurrence_table.

(** The cumulative column is the sum of the counts from the row on, hence non-increasing. *)
Theorem C35_recurrence_cumulative : forall (mag year : list R) dmag tab, 0 < dmag ->
  @recurrence_table ROps mag dmag year = Ok tab ->
  (forall k row, nth_error tab k = Some row -> rc_cum row = Rsum (skipn k (map rc_n tab))) /\
  (forall k row row', nth_error tab k = Some row -> nth_error tab (k + 1) = Some row' ->
     rc_cum row' <= rc_cum row).
Proof. exact C35_cumulative_proof. Qed.
Print Assumptions C35_recurrence_cumulative.

(** Three events in different tenths over two decades. *)
Example C35_case : 0 < 1/10 /\ [45/10; 452/100; 61/10] <> [] /\ [1980; 1990; 1999] <> [] /\
  exists tab row, @recurrence_table ROps [45/10; 452/100; 61/10] (1/10) [1980; 1990; 1999] = Ok tab /\
    nth_error tab 0 = Some row /\ rc_cum row = 3.
Proof.
  split; [lra|]. split; [discriminate|]. split; [discriminate|].
  destruct (C35_recurrence_table [45/10; 452/100; 61/10] [1980; 1990; 1999] (1/10))
    as (tab & lo & f & l & E & _ & _ & _ & _ & (row & R1 & R2) & _); try lra; try discriminate.
  exists tab, row. split; [exact E|]. split; auto. rewrite R2. simpl. lra.
Qed.

(** C36.  The b-value maximises the likelihood of exponentially distributed magnitudes above
    half a bin below the smallest complete one; closed forms of b and its deviation, bounds. *)
Theorem C36_b_maximum_likelihood : forall (mval nobs : list R) (dmag m_c : R),
  length mval = length nobs -> (forall n, In n nobs -> 0 <= n) -> 0 < dmag ->
  let ev := filter (fun p => Rleb m_c (fst p)) (combine mval nobs) in
  0 < wtotal ev ->
  exists mmin b s, @b_max_likelihood ROps mval nobs dmag m_c = Ok (b, s) /\
    is_min mmin (map fst ev) /\
    b = Rlog10 (exp 1) / (wmean ev - mmin + dmag / 2) /\
    0 < b <= Rlog10 (exp 1) / (dmag / 2) /\
    s = 23 / 10 * (b * b) * sqrt (wsum (fun m => (m - wmean ev) * (m - wmean ev)) ev
                                  / (wtotal ev * (wtotal ev - 1))) /\
    (forall beta, 0 < beta ->
       exp_loglik (mmin - dmag / 2) beta ev <= exp_loglik (mmin - dmag / 2) (b * ln 10) ev).
Proof. exact C36_proof. Qed.
Print Assumptions C36_b_maximum_likelihood.

(** Adding a constant to all magnitudes and the completeness magnitude leaves b unchanged. *)
Theorem C36_b_shift_invariant : forall (mval nobs : list R) (dmag m_c c : R),
  length mval = length nobs ->
  0 < wtotal (filter (fun p => Rleb m_c (fst p)) (combine mval nobs)) ->
  @b_max_likelihood ROps (map (fun x => x + c) mval) nobs dmag (m_c + c)
  = @b_max_likelihood ROps mval nobs dmag m_c.
Proof. exact C36_shift_proof. Qed.
Print Assumptions C36_b_shift_invariant.

(** Two complete bins and one below completeness. *)
Example C36_case : length [4; 5; 6] = length [7; 3; 1] /\ (forall n, In n [7; 3; 1] -> 0 <= n) /\
  wtotal (filter (fun p => Rleb 5 (fst p)) (combine [4; 5; 6] [7; 3; 1])) = 4.
Proof.
  split; auto. split. { intros n [<-|[<-|[<-|[]]]]; lra. }
  cbn [combine filter fst]. rdec. unfold wtotal. cbn [map Rsum snd]. lra.
Qed.

(** C37.  With the rows of each completeness year listed together, the result is the mean of
    the per-period estimates weighted by their numbers of events, and b lies between two of
    them. *)
Theorem C37_b_time_weighted_mean : forall (year mag ctime cmag : list R) (dmag ref_mag : R) groups (b sb a sa : R),
  length year = length mag -> length ctime = length cmag -> by_year groups ctime ->
  @b_maxlike_time ROps year mag ctime cmag dmag ref_mag = Ok (b, sb, a, sa) ->
  exists ps : list (@period ROps),
    Forall2 (fun cy (p : @period ROps) => period_estimate year mag ctime cmag dmag ref_mag cy
       (pd_n p) (pd_b p) (pd_sb p) (pd_rate p) (pd_sigrate p)) (map fst groups) ps /\
    let mean f := Rsum (map (fun p => INR (pd_n p) / INR (list_sum (map pd_n ps)) * f p) ps) in
    b = mean pd_b /\ sb = mean pd_sb /\ a = mean pd_rate /\ sa = mean pd_sigrate /\
    exists lo hi, In lo ps /\ In hi ps /\ pd_b lo <= b <= pd_b hi.
Proof. exact C37_proof. Qed.
Print Assumptions C37_b_time_weighted_mean.

(** It succeeds when every completeness year has an event complete for it. *)
Theorem C37_b_time_succeeds : forall (year mag ctime cmag : list R) (dmag ref_mag : R) groups,
  length year = length mag -> length ctime = length cmag -> by_year groups ctime ->
  groups <> [] -> 1 / 50000 <= dmag ->
  (forall cy, In cy ctime -> exists c y m, In (cy, c) (combine ctime cmag) /\
     In (y, m) (combine year mag) /\ cy <= y /\ c <= m) ->
  exists r, @b_maxlike_time ROps year mag ctime cmag dmag ref_mag = Ok r.
Proof. exact C37_succeeds_proof. Qed.
Print Assumptions C37_b_time_succeeds.

(** Two periods, the first with two rows. *)
Example C37_case : by_year [(1990, 2%nat); (1980, 1%nat)] [1990; 1990; 1980] /\
  exists r, @b_maxlike_time ROps [1995; 1985; 1992] [4; 5; 55/10] [1990; 1990; 1980] [4; 5; 5] (1/10) 5 = Ok r.
Proof.
  assert (B : by_year [(1990, 2%nat); (1980, 1%nat)] [1990; 1990; 1980]).
  { split; [reflexivity|]. split. { cbn [map fst]. constructor. intros [H|[]]; lra. constructor. auto. constructor. }
    split. { intros g [<-|[<-|[]]]; simpl; lia. }
    intros g g' [<-|[<-|[]]] [<-|[<-|[]]]; cbn [fst]; auto; intros H; exfalso; revert H;
      unfold Rabs; destruct (Rcase_abs _); lra. }
  split; auto.
  apply (C37_b_time_succeeds _ _ _ _ _ _ [(1990, 2%nat); (1980, 1%nat)]); auto; try discriminate; try lra.
  intros cy [<-|[<-|[<-|[]]]].
  - exists 4, 1995, 4. simpl. repeat split; auto; lra.
  - exists 4, 1995, 4. simpl. repeat split; auto; lra.
  - exists 5, 1985, 5. simpl. repeat split; auto; lra.
Qed.

(** C38 is false as stated: with a table not ordered by year a period can be skipped (here
    the magnitude of the 1980 row has no influence, even when no event is complete for it). *)
Theorem C38_every_period_used_refuted : exists (year mag ctime : list R) (cmag : R -> list R) dmag ref_mag r,
  length year = length mag /\ In 1980 ctime /\
  (forall m, length ctime = length (cmag m) /\ In (1980, m) (combine ctime (cmag m))) /\
  (forall m, @b_maxlike_time ROps year mag ctime (cmag m) dmag ref_mag = Ok r) /\
  (forall n b sb rate sigrate,
     ~ period_estimate year mag ctime (cmag 9) dmag ref_mag 1980 n b sb rate sigrate).
Proof. exact C38_refuted_proof. Qed.
Print Assumptions C38_every_period_used_refuted.

(** What holds: when equal years are adjacent, every completeness year contributes exactly
    once. *)
Theorem C38_every_period_used_partial : forall (year mag ctime cmag : list R) (dmag ref_mag b sb a sa : R),
  length year = length mag -> length ctime = length cmag ->
  (forall y y', In y ctime -> In y' ctime -> Rabs (y - y') < 1 / 100000 -> y = y') ->
  (forall i j k x y, (i < j < k)%nat -> nth_error ctime i = Some x -> nth_error ctime j = Some y ->
     nth_error ctime k = Some x -> y = x) ->
  @b_maxlike_time ROps year mag ctime cmag dmag ref_mag = Ok (b, sb, a, sa) ->
  exists (ys : list R) (ps : list (@period ROps)),
    NoDup ys /\ (forall y, In y ys <-> In y ctime) /\
    Forall2 (fun cy (p : @period ROps) => period_estimate year mag ctime cmag dmag ref_mag cy
       (pd_n p) (pd_b p) (pd_sb p) (pd_rate p) (pd_sigrate p)) ys ps /\
    let mean f := Rsum (map (fun p => INR (pd_n p) / INR (list_sum (map pd_n ps)) * f p) ps) in
    b = mean pd_b /\ sb = mean pd_sb /\ a = mean pd_rate /\ sa = mean pd_sigrate.
Proof. exact C38_partial_proof. Qed.
Print Assumptions C38_every_period_used_partial.

(** Stepp tables computed with the increment lock meet that condition. *)
Theorem C38_stepp_tables_grouped : forall (year mw : list R) (dm dt ttol : R) tab,
  0 < dm -> 1 / 100000 <= dt -> year <> [] -> mw <> [] ->
  @stepp_analysis ROps year mw dm dt ttol true = Ok tab ->
  let ctime := map fst tab in
  (forall y y', In y ctime -> In y' ctime -> Rabs (y - y') < 1 / 100000 -> y = y') /\
  (forall i j k x y, (i < j < k)%nat -> nth_error ctime i = Some x -> nth_error ctime j = Some y ->
     nth_error ctime k = Some x -> y = x).
Proof. exact C38_stepp_proof. Qed.
Print Assumptions C38_stepp_tables_grouped.

(** C39.  Weichert's input: bin centres, the events counted in each bin outside the incomplete
    corners, and the observation times; the bins cover the magnitudes rounded to a tenth. *)
Theorem C39_weichert_prep : forall (year mag : list R) (table : list (R * R)) d_m d_t,
  0 < d_m -> 0 < d_t -> year <> [] -> length mag = length year -> table <> [] ->
  exists rm ymin ymax mmin n cent tper nobs,
    Forall2 tenth mag rm /\ is_min ymin year /\ is_max ymax year /\ is_min mmin rm /\
    @weichert_prep ROps year mag table d_m d_t = Ok (cent, tper, nobs) /\
    length cent = n /\ length tper = n /\ length nobs = n /\
    (forall m, In m rm -> mmin <= m < mmin + INR n * d_m) /\
    (exists m, In m rm /\ mmin + INR n * d_m < m + 3 / 2 * d_m) /\
    (forall i, (i < n)%nat ->
       nth_error cent i = Some (mmin + (INR i + 1 / 2) * d_m) /\
       nth_error nobs i
         = Some (count (counts_in ymin d_t mmin d_m table i) (combine year rm)) /\
       exists cy, time_row table (mmin + INR i * d_m) cy /\
         nth_error tper i = Some (ymax - cy + 1)).
Proof. exact C39_proof. Qed.
Print Assumptions C39_weichert_prep.

(** No event is counted twice. *)
Theorem C39_weichert_counts_at_most_all : forall (year mag : list R) (table : list (R * R)) d_m d_t cent tper nobs,
  0 < d_m -> 0 < d_t -> year <> [] -> length mag = length year ->
  @weichert_prep ROps year mag table d_m d_t = Ok (cent, tper, nobs) ->
  (list_sum nobs <= length year)%nat.
Proof. exact C39_total_proof. Qed.
Print Assumptions C39_weichert_counts_at_most_all.

(** C40 is false as stated: an event complete for every row can be dropped because its time
    bin starts before the completeness year. *)
Theorem C40_complete_events_counted_refuted : exists (year mag : list R) (table : list (R * R)) d_m d_t cent tper nobs,
  0 < d_m /\ 0 < d_t /\ length mag = length year /\
  @weichert_prep ROps year mag table d_m d_t = Ok (cent, tper, nobs) /\
  (forall k y m cy cm, nth_error year k = Some y -> nth_error mag k = Some m ->
     In (cy, cm) table -> cy <= y \/ cm <= m) /\
  (list_sum nobs < length year)%nat.
Proof. exact C40_refuted_proof. Qed.
Print Assumptions C40_complete_events_counted_refuted.

(** What holds: when the steps of the table lie on bin edges every complete event is counted. *)
Theorem C40_complete_events_counted_partial : forall (year mag : list R) (table : list (R * R)) d_m d_t,
  0 < d_m -> 0 < d_t -> year <> [] -> length mag = length year -> table <> [] ->
  exists rm ymin mmin cent tper nobs,
    Forall2 tenth mag rm /\ is_min ymin year /\ is_min mmin rm /\
    @weichert_prep ROps year mag table d_m d_t = Ok (cent, tper, nobs) /\
    ((forall cy cm, In (cy, cm) table -> exists z1 z2 z3 : Z,
        cy = ymin + IZR z1 * d_t /\ cm = mmin + IZR z2 * d_m /\ cm = IZR z3 / 10) ->
     forall k y m, nth_error year k = Some y -> nth_error mag k = Some m ->
       (forall cy cm, In (cy, cm) table -> cy <= y \/ cm <= m) ->
       exists i r, nth_error rm k = Some r /\ bin_of mmin d_m i r = true /\
         (i < length nobs)%nat /\
         counts_in ymin d_t mmin d_m table i (y, r) = true /\
         nth_error nobs i = Some (count (counts_in ymin d_t mmin d_m table i) (combine year rm))).
Proof. exact C40_partial_proof. Qed.
Print Assumptions C40_complete_events_counted_partial.

(** A table whose step lies on bin edges, with one event below and one above it. *)
Example C39_C40_case : forall ymin mmin, ymin = 1980 -> mmin = 4 ->
  forall cy cm, In (cy, cm) [(1990, 5)] -> exists z1 z2 z3 : Z,
    cy = ymin + IZR z1 * 5 /\ cm = mmin + IZR z2 * (5/10) /\ cm = IZR z3 / 10.
Proof.
  intros ymin mmin -> -> cy cm [H|[]]. injection H. intros <- <-. exists 2%Z, 2%Z, 50%Z. lra.
Qed.

(** C41.  When weichert returns, b is a Newton iterate for the log-likelihood of the counts,
    whose last step is within the tolerance, the second derivative is negative, and the
    deviation and rates have the stated forms and are positive. *)
Theorem C41_weichert_result : forall fuel (tper fmag nobs : list R) f0 f1 rest mrate beta itstab b sb a sa,
  fmag = f0 :: f1 :: rest -> f0 <> f1 ->
  length tper = length fmag -> (forall t, In t tper -> 0 < t) -> 0 < Rsum nobs ->
  @weichert ROps fuel tper fmag nobs mrate beta itstab = Ok (b, sb, a, sa) ->
  let L := weichert_loglik (combine tper fmag) (Rsum nobs) (Rsum (map2 Rmult nobs fmag)) in
  let m0 := f0 - (f1 - f0) / 2 in
  exists (L' : R -> R) beta0 beta1 d2,
    (forall x, derivable_pt_lim L x (L' x)) /\ derivable_pt_lim L' beta0 d2 /\ d2 < 0 /\
    beta1 = beta0 - L' beta0 / d2 /\ Rabs (beta1 - beta0) <= itstab /\
    b = beta1 / ln 10 /\ sb = sqrt (1 / - d2) / ln 10 /\ 0 < sb /\
    let rate := Rsum nobs * Rsum (map (fun m => exp (- beta0 * m)) fmag)
                / Rsum (map (fun p => fst p * exp (- beta0 * snd p)) (combine tper fmag)) in
    a = (if Req_EM_T mrate 0 then rate else rate * exp (- beta1 * (mrate - m0))) /\
    sa = (if Req_EM_T mrate 0 then rate * exp (- beta1 * m0) else a) / sqrt (Rsum nobs) /\
    0 < a /\ 0 < sa.
Proof. exact C41_proof. Qed.
Print Assumptions C41_weichert_result.

(** C42 is false as stated: a catalogue whose only complete event is in the lowest bin makes
    recurrence_analysis iterate for ever. *)
Theorem C42_weichert_terminates_refuted : exists (year mag : list R) (table : list (R * R)) d_m d_t cent tper nobs,
  0 < d_m /\ 0 < d_t /\ length mag = length year /\ table <> [] /\
  @weichert_prep ROps year mag table d_m d_t = Ok (cent, tper, nobs) /\
  (0 < list_sum nobs)%nat /\ (forall t, In t tper -> 0 < t) /\ (2 <= length cent)%nat /\
  forall fuel ref_mag,
    @recurrence_analysis ROps fuel year mag table d_m "Weichert" ref_mag d_t = Err OutOfFuel.
Proof. exact C42_refuted_proof. Qed.
Print Assumptions C42_weichert_terminates_refuted.

(** This happens whenever all events are in the lowest, or all in the highest, bin and the
    tolerance is below the inverse of the magnitude range, from every start. *)
Theorem C42_weichert_extreme_bin_diverges : forall fuel (tper fmag nobs : list R) mrate beta itstab lo hi extreme,
  length tper = length fmag -> length nobs = length fmag -> (forall t, In t tper -> 0 < t) ->
  is_min lo fmag -> is_max hi fmag -> lo < hi ->
  0 < Rsum nobs -> (extreme = lo \/ extreme = hi) ->
  (forall n x, In (n, x) (combine nobs fmag) -> n = 0 \/ x = extreme) ->
  itstab < 1 / (hi - lo) ->
  @weichert ROps fuel tper fmag nobs mrate beta itstab = Err OutOfFuel.
Proof. exact C42_extreme_proof. Qed.
Print Assumptions C42_weichert_extreme_bin_diverges.

(** Events in more than one bin are not enough: with two bins two units apart and one event
    in each, the iteration diverges from the start 1.5 that recurrence_analysis uses. *)
Theorem C42_weichert_default_start_diverges : forall fuel mrate itstab, itstab < 3 ->
  @weichert ROps fuel [1; 1] [5; 7] [1; 1] mrate (3 / 2) itstab = Err OutOfFuel.
Proof. exact C42_far_proof. Qed.
Print Assumptions C42_weichert_default_start_diverges.

(** What holds: otherwise the likelihood has a unique maximum, and from every start near it
    weichert returns an estimate within the tolerance of it. *)
Theorem C42_weichert_terminates_partial : forall (tper fmag nobs : list R) lo hi,
  length tper = length fmag -> length nobs = length fmag -> (forall t, In t tper -> 0 < t) ->
  (forall n, In n nobs -> 0 <= n) -> is_min lo fmag -> is_max hi fmag ->
  (exists n m, In (n, m) (combine nobs fmag) /\ 0 < n /\ lo < m) ->
  (exists n m, In (n, m) (combine nobs fmag) /\ 0 < n /\ m < hi) ->
  let L := weichert_loglik (combine tper fmag) (Rsum nobs) (Rsum (map2 Rmult nobs fmag)) in
  exists best, (forall x, x <> best -> L x < L best) /\
    exists delta, 0 < delta /\
      forall beta itstab mrate, Rabs (beta - best) < delta -> 0 < itstab ->
        exists fuel b sb a sa, @weichert ROps fuel tper fmag nobs mrate beta itstab = Ok (b, sb, a, sa) /\
          Rabs (b * ln 10 - best) <= itstab.
Proof. exact C42_partial_proof. Qed.
Print Assumptions C42_weichert_terminates_partial.

(** Three bins with events in all of them. *)
Example C41_C42_case :
  let tper := [10; 20; 30] in let fmag := [4; 5; 6] in let nobs := [10; 3; 1] in
  (forall t, In t tper -> 0 < t) /\ 0 < Rsum nobs /\ is_min 4 fmag /\ is_max 6 fmag /\
  (exists n m, In (n, m) (combine nobs fmag) /\ 0 < n /\ 4 < m) /\
  (exists n m, In (n, m) (combine nobs fmag) /\ 0 < n /\ m < 6).
Proof.
  cbv zeta. split. { intros t [<-|[<-|[<-|[]]]]; lra. }
  split. { simpl; lra. }
  split. { split; simpl; auto. intros y [<-|[<-|[<-|[]]]]; lra. }
  split. { split; simpl; auto. intros y [<-|[<-|[<-|[]]]]; lra. }
  split. { exists 3, 5. simpl. repeat split; auto; lra. }
  exists 3, 5. simpl. repeat split; auto; lra.
Qed.

(** A range of starts from which it returns: equally spaced bins whose durations grow by at
    most the factor exp (blow * d) from bin to bin, a start at or above blow, and either a
    maximum above the start or a first Newton step that does not go below blow.  With one
    completeness row all durations are equal and blow = 0 will do. *)
Theorem C42_weichert_returns_partial : forall (tper fmag nobs : list R) m0 d blow,
  length tper = length fmag -> length nobs = length fmag -> (forall t, In t tper -> 0 < t) ->
  (forall n, In n nobs -> 0 <= n) -> 0 < d ->
  (forall i m, nth_error fmag i = Some m -> m = m0 + INR i * d) ->
  (forall i t t', nth_error tper i = Some t -> nth_error tper (S i) = Some t' -> t' <= t * exp (blow * d)) ->
  (exists n m m', In (n, m) (combine nobs fmag) /\ 0 < n /\ In m' fmag /\ m' < m) ->
  (exists n m m', In (n, m) (combine nobs fmag) /\ 0 < n /\ In m' fmag /\ m < m') ->
  let L := weichert_loglik (combine tper fmag) (Rsum nobs) (Rsum (map2 Rmult nobs fmag)) in
  exists best (L' L'' : R -> R),
    (forall x, x <> best -> L x < L best) /\
    (forall x, derivable_pt_lim L x (L' x)) /\ (forall x, derivable_pt_lim L' x (L'' x)) /\
    forall beta itstab mrate, 0 < itstab -> blow <= best -> blow <= beta ->
      beta <= best \/ blow <= beta - L' beta / L'' beta ->
      exists fuel r, @weichert ROps fuel tper fmag nobs mrate beta itstab = Ok r.
Proof. exact C42_grid_proof. Qed.
Print Assumptions C42_weichert_returns_partial.

(** Counts 100, 10, 1 under equal durations, from the default start. *)
Example C42_returns_case : forall itstab mrate, 0 < itstab -> exists fuel r,
  @weichert ROps fuel [20; 20; 20] [5; 6; 7] [100; 10; 1] mrate (3 / 2) itstab = Ok r.
Proof. exact b_one_returns. Qed.

(** C93: whenever weichert returns, the maximum of the likelihood exists, the b-value is
    within the tolerance of it, and the error of the b-value is the one given by the curvature
    at the maximum up to a factor close to 1 (tolerance times magnitude range in the
    exponent). *)
Theorem C93_weichert_is_the_estimate :
  forall fuel (tper fmag nobs : list R) f0 f1 rest lo hi mrate beta itstab b sb a sa,
  fmag = f0 :: f1 :: rest -> f0 <> f1 ->
  length tper = length fmag -> (forall t, In t tper -> 0 < t) -> 0 < Rsum nobs ->
  (forall m, In m fmag -> lo <= m <= hi) -> (hi - lo) * itstab <= 3 / 10 ->
  @weichert ROps fuel tper fmag nobs mrate beta itstab = Ok (b, sb, a, sa) ->
  let L := weichert_loglik (combine tper fmag) (Rsum nobs) (Rsum (map2 Rmult nobs fmag)) in
  exists best (L' : R -> R) d2 r,
    (forall x, x <> best -> L x < L best) /\ Rabs (b * ln 10 - best) <= itstab /\
    (forall x, derivable_pt_lim L x (L' x)) /\ derivable_pt_lim L' best d2 /\ d2 < 0 /\
    sb * ln 10 = r * sqrt (1 / - d2) /\
    exp (- ((hi - lo) * itstab)) <= r <= exp ((hi - lo) * itstab).
Proof. exact C93_proof. Qed.
Print Assumptions C93_weichert_is_the_estimate.

(** The hypotheses are met by the table above with the tolerance of the code. *)
Example C93_case : exists fuel b sb a sa,
  @weichert ROps fuel [20; 20; 20] [5; 6; 7] [100; 10; 1] 5 (3 / 2) (1 / 100000) = Ok (b, sb, a, sa) /\
  0 < Rsum [100; 10; 1] /\ (forall m, In m [5; 6; 7] -> 5 <= m <= 7) /\ (7 - 5) * (1 / 100000) <= 3 / 10.
Proof.
  destruct (b_one_returns (1 / 100000) 5) as (fuel & [[[b sb] a] sa] & E); [lra|].
  exists fuel, b, sb, a, sa. split; [exact E|]. split; [unfold Rsum; simpl; lra|].
  split; [|lra]. intros m [<-|[<-|[<-|[]]]]; lra.
Qed.

(** C43.  The name "Weichert" and only it selects Weichert's method, started at 1.5 with
    tolerance 1e-5; every other name gives the maximum-likelihood estimate, with the years of
    the table as completeness years and its magnitudes as completeness magnitudes, whatever
    the time window. *)
Theorem C43_recurrence_dispatch : forall (AR : Ops) fuel (year mag : list T) table mag_window name
    ref_mag time_window,
  (name = "Weichert"%string ->
   recurrence_analysis fuel year mag table mag_window name ref_mag time_window
   = match weichert_prep year mag table mag_window time_window with
     | Ok (cent_mag, t_per, n_obs) =>
         weichert fuel t_per cent_mag (map ofnat n_obs) ref_mag (lit 15 10) (lit 1 100000)
     | Err e => Err e
     end) /\
  (name <> "Weichert"%string ->
   recurrence_analysis fuel year mag table mag_window name ref_mag time_window
   = b_maxlike_time year mag (map fst table) (map snd table) mag_window ref_mag).
Proof. exact C43_proof. Qed.
Print Assumptions C43_recurrence_dispatch.

Example C43_case : "weichert"%string <> "Weichert"%string /\ "MLE"%string <> "Weichert"%string.
Proof. split; discriminate. Qed.


(** C89 is false as stated: the a-value for reference magnitude 0 is not the annual rate of events
    above 0 (it is smaller than the rate above 1), and its error is not a / sqrt N. *)
Theorem C89_weichert_a_value_refuted : exists (tper fmag nobs : list R) b sb a0 s0 a1 s1,
  (forall t, In t tper -> 0 < t) /\ (forall n, In n nobs -> 0 < n) /\
  @weichert ROps 1 tper fmag nobs 0 (15 / 10) (1 / 100000) = Ok (b, sb, a0, s0) /\
  @weichert ROps 1 tper fmag nobs 1 (15 / 10) (1 / 100000) = Ok (b, sb, a1, s1) /\
  0 < b /\ a0 < a1 /\ s0 <> a0 / sqrt (Rsum nobs).
Proof. exact C89_refuted_proof. Qed.
Print Assumptions C89_weichert_a_value_refuted.

(** What holds: for reference magnitudes other than 0 the a-values follow the fitted law
    a(r2) = a(r1) 10^(-b (r2 - r1)) with the same b, and the error is a / sqrt N; for reference
    magnitude 0 the a-value is the one for the lower edge of the first bin. *)
Theorem C89_weichert_a_value_partial : forall fuel (tper fmag nobs : list R) f0 f1 rest r1 r2 beta itstab b sb a sa,
  fmag = f0 :: f1 :: rest ->
  @weichert ROps fuel tper fmag nobs r1 beta itstab = Ok (b, sb, a, sa) -> r2 <> 0 ->
  let edge := f0 - (f1 - f0) / 2 in
  (r1 <> 0 -> sa = a / sqrt (Rsum nobs) /\
    exists sa2, @weichert ROps fuel tper fmag nobs r2 beta itstab
      = Ok (b, sb, a * exp (- (b * ln 10) * (r2 - r1)), sa2)) /\
  (r1 = 0 -> edge <> 0 -> exists sa2, @weichert ROps fuel tper fmag nobs r2 beta itstab
      = Ok (b, sb, a * exp (- (b * ln 10) * (r2 - edge)), sa2)).
Proof. exact C89_partial_proof. Qed.
Print Assumptions C89_weichert_a_value_partial.

(** Two bins for which the method returns after one pass, at every reference magnitude. *)
Example C89_case : forall r, exists b sb a sa, [4; 5] = 4 :: 5 :: [] /\
  @weichert ROps 1 [exp 6; exp (15 / 2)] [4; 5] [1; 1] r (3 / 2) (1 / 100000) = Ok (b, sb, a, sa).
Proof. intros r. destruct (w89_eval r) as (b & sb & a & _ & E). exists b, sb. eauto. Qed.

(** C90 is false as stated: the error of the a-value of one period differs between reference
    magnitudes although b and its error are the same. *)
Theorem C90_mle_a_error_refuted : exists (year mag : list R) cy m_c dmag r1 r2 b sb a1 a2 s1 s2,
  length year = length mag /\
  @b_maxlike_time ROps year mag [cy] [m_c] dmag r1 = Ok (b, sb, a1, s1) /\
  @b_maxlike_time ROps year mag [cy] [m_c] dmag r2 = Ok (b, sb, a2, s2) /\ s1 < s2.
Proof. exact C90_refuted_proof. Qed.
Print Assumptions C90_mle_a_error_refuted.

(** What holds: the error is the power of ten of |(b + sb) ref - b m_c|, which comes from the error
    of b alone only when the reference magnitude is the completeness magnitude. *)
Theorem C90_mle_a_error_partial : forall (year mag : list R) cy m_c dmag ref_mag b sb a sa, length year = length mag ->
  @b_maxlike_time ROps year mag [cy] [m_c] dmag ref_mag = Ok (b, sb, a, sa) ->
  sa = Rpower 10 (Rabs ((b + sb) * ref_mag - b * m_c)) /\
  (ref_mag = m_c -> sa = Rpower 10 (Rabs (sb * m_c))).
Proof. exact C90_partial_proof. Qed.
Print Assumptions C90_mle_a_error_partial.

Example C90_case : exists r, @b_maxlike_time ROps [1990; 1995; 1999] [5; 5; 6] [1980] [4] (1/10) 4 = Ok r.
Proof. exact (w90_ok 4). Qed.

(** C91 is false as stated: with completeness magnitude 4.07 two of three complete events are in
    the bin centred at 4.05 and do not enter the b-value. *)
Theorem C91_mle_all_events_refuted : exists (year mag : list R) cy m_c dmag ref_mag b sb a sa tab,
  length year = length mag /\ (forall y, In y year -> cy <= y) /\ (forall m, In m mag -> m_c <= m) /\
  @b_maxlike_time ROps year mag [cy] [m_c] dmag ref_mag = Ok (b, sb, a, sa) /\
  @recurrence_table ROps mag dmag year = Ok tab /\
  @b_max_likelihood ROps (map rc_mag tab) (map rc_n tab) dmag m_c = Ok (b, sb) /\
  wtotal (filter (fun p => Rleb m_c (fst p)) (combine (map rc_mag tab) (map rc_n tab))) < INR (length mag).
Proof. exact C91_refuted_proof. Qed.
Print Assumptions C91_mle_all_events_refuted.

(** What holds: when the completeness magnitude is a multiple of 0.1 the bins used hold all the
    complete events. *)
Theorem C91_mle_all_events_partial : forall (mag year : list R) dmag m_c z, 0 < dmag -> mag <> [] -> year <> [] ->
  m_c = IZR z / 10 -> (forall m, In m mag -> m_c <= m) ->
  exists tab, @recurrence_table ROps mag dmag year = Ok tab /\
    wtotal (filter (fun p => Rleb m_c (fst p)) (combine (map rc_mag tab) (map rc_n tab))) = INR (length mag).
Proof. exact C91_partial_proof. Qed.
Print Assumptions C91_mle_all_events_partial.

Example C91_case : 0 < 1/4 /\ [42/10; 5] <> [] /\ [1990; 1995] <> [] /\ 41/10 = IZR 41 / 10 /\
  (forall m, In m [42/10; 5] -> 41/10 <= m).
Proof.
  split; [lra|]. split; [discriminate|]. split; [discriminate|]. split; [reflexivity|].
  intros m [<-|[<-|[]]]; lra.
Qed.

(** C92 is false as stated: two complete events in the same year of a catalogue complete for a
    century give a rate a hundred times too large. *)
Theorem C92_mle_rate_refuted : exists (year mag : list R) cy m_c dmag b sb a sa final,
  length year = length mag /\ is_max final year /\ is_min cy year /\
  @b_maxlike_time ROps year mag [cy] [m_c] dmag m_c = Ok (b, sb, a, sa) /\
  let n := length (filter (fun e => Rleb cy (fst e) && Rleb m_c (snd e))%bool (combine year mag)) in
  100 * (INR n / (final - cy + 1)) < a.
Proof. exact C92_refuted_proof. Qed.
Print Assumptions C92_mle_rate_refuted.

(** What holds: the number of complete events is divided by the years from the first to the last
    complete event, so the rate is never below the one over the completeness period, and equal to
    it exactly when there are complete events in its first and last year. *)
Theorem C92_mle_rate_partial : forall (year mag : list R) cy m_c dmag ref_mag b sb a sa final, length year = length mag ->
  @b_maxlike_time ROps year mag [cy] [m_c] dmag ref_mag = Ok (b, sb, a, sa) -> is_max final year ->
  let ev := filter (fun e => Rleb cy (fst e) && Rleb (m_c - 1 / 100000) (snd e))%bool (combine year mag) in
  let rate years := INR (length ev) / years * Rpower 10 (b * (m_c - ref_mag)) in
  exists first last, is_min first (map fst ev) /\ is_max last (map fst ev) /\
    a = rate (last - first + 1) /\ rate (final - cy + 1) <= a /\
    (a = rate (final - cy + 1) <-> first = cy /\ last = final).
Proof. exact C92_partial_proof. Qed.
Print Assumptions C92_mle_rate_partial.

Example C92_case : is_max 1999 [1990; 1995; 1999] /\
  exists r, @b_maxlike_time ROps [1990; 1995; 1999] [5; 5; 6] [1980] [4] (1/10) 4 = Ok r.
Proof.
  split; [|exact (w90_ok 4)]. split; [simpl; auto|]. intros y [<-|[<-|[<-|[]]]]; lra.
Qed.
