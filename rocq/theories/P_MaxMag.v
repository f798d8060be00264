(** Properties C44-C52, C77-C79 and C88: maximum_magnitude.py. *)
From Coq Require Import String ZArith Arith Bool List Lia Reals Lra Permutation Sorted.
From Verif Require Import Base Ops BaseFacts RFacts SteppSpec MaxMag SteppProofs GeoProofs MaxMagProofs
  KijkoProofs KijkoWitness MomentSpec MomentProofs NormalCdf.
Import ListNotations.
Local Open Scope R_scope.

(** C44.  Within five standard deviations of the mean the approximated normal distribution function
    is strictly between 0 and 1, strictly increasing, symmetric and 1/2 at the mean. *)
Theorem C44_hastings_central : forall (barx sigx : R), 0 < sigx ->
  let F x := @gauss_cdf_hastings1 ROps barx sigx x in
  (forall x, barx - 5 * sigx <= x <= barx + 5 * sigx -> 0 < F x < 1) /\
  F barx = 1 / 2 /\
  (forall d, - 5 * sigx <= d <= 5 * sigx -> F (barx - d) = 1 - F (barx + d)) /\
  (forall x y, barx - 5 * sigx <= x -> x < y -> y <= barx + 5 * sigx -> F x < F y).
Proof. exact C44_proof. Qed.
Print Assumptions C44_hastings_central.

Example C44_case : 0 < 2 /\ 5 - 5 * 2 <= 7 <= 5 + 5 * 2 /\ 0 < @gauss_cdf_hastings1 ROps 5 2 7 < 1.
Proof. split; [lra|]. split; [lra|]. apply (C44_hastings_central 5 2 ltac:(lra)). lra. Qed.

(** C45, as stated, is false: more than five deviations below the mean the function is 1. *)
Theorem C45_distribution_function_refuted : exists x y : R, x < y /\
  @gauss_cdf_hastings1 ROps 0 1 y < @gauss_cdf_hastings1 ROps 0 1 x /\
  forall z, z < -5 -> @gauss_cdf_hastings1 ROps 0 1 z = 1.
Proof. exact C45_refuted_proof. Qed.
Print Assumptions C45_distribution_function_refuted.

(** C45, what holds: values in [0,1], 1 in the upper tail, and non-decreasing from five
    deviations below the mean upwards.  Missing: the lower tail (refuted above). *)
Theorem C45_distribution_function_partial : forall (barx sigx : R), 0 < sigx ->
  let F x := @gauss_cdf_hastings1 ROps barx sigx x in
  (forall x, 0 <= F x <= 1) /\
  (forall x, barx + 5 * sigx < x -> F x = 1) /\
  (forall x y, barx - 5 * sigx <= x -> x <= y -> F x <= F y).
Proof. exact C45_partial_proof. Qed.
Print Assumptions C45_distribution_function_partial.

Example C45_case : 0 < 1/10 /\ @gauss_cdf_hastings1 ROps 5 (1/10) 6 = 1.
Proof. split; [lra|]. apply (C45_distribution_function_partial 5 (1/10) ltac:(lra)). lra. Qed.

(** C88, as stated (within 1/4000 of the normal distribution function, the accuracy of Hastings'
    published formula), is false: one deviation above the mean the result is too small by more than
    0.17.  The published coefficient of the square is +0.115194, the code has -0.115194. *)
Theorem C88_normal_cdf_refuted : exists barx sigx x : R, 0 < sigx /\ barx - 5 * sigx <= x <= barx + 5 * sigx /\
  forall Phi, normal_cdf Phi -> 17 / 100 < Phi ((x - barx) / sigx) - @gauss_cdf_hastings1 ROps barx sigx x.
Proof. exact C88_refuted_proof. Qed.
Print Assumptions C88_normal_cdf_refuted.

(** C88, what holds: within five deviations the approximation is exact at the mean and nowhere off
    by more than 1/4.  Missing: the accuracy 1/4000 (refuted above). *)
Theorem C88_normal_cdf_partial : forall (Phi : R -> R) (barx sigx : R), normal_cdf Phi -> 0 < sigx ->
  @gauss_cdf_hastings1 ROps barx sigx barx = Phi 0 /\
  forall x, barx - 5 * sigx <= x <= barx + 5 * sigx ->
    Rabs (@gauss_cdf_hastings1 ROps barx sigx x - Phi ((x - barx) / sigx)) <= 1 / 4.
Proof. exact C88_partial_proof. Qed.
Print Assumptions C88_normal_cdf_partial.

(** The hypothesis can be met, by one function only. *)
Example C88_case : exists Phi, normal_cdf Phi /\ (forall Psi, normal_cdf Psi -> forall x, Psi x = Phi x) /\
  Rabs (@gauss_cdf_hastings1 ROps 5 2 6 - Phi ((6 - 5) / 2)) <= 1 / 4.
Proof.
  destruct normal_cdf_exists as [Phi H]. exists Phi. split; [exact H|]. split.
  - intros Psi HP x. exact (normal_cdf_unique Psi Phi HP H x).
  - apply (C88_normal_cdf_partial Phi 5 2 H ltac:(lra)). lra.
Qed.

(** C46.  The sample points: the requested number, from lower to upper exactly, strictly
    increasing, equally spaced in the exponential. *)
Theorem C46_exponential_points : forall (lower upper : R) (nsamp : nat), lower < upper -> (2 <= nsamp)%nat ->
  let pts := @exp_spaced_points ROps lower upper nsamp in
  length pts = nsamp /\ nth_error pts 0 = Some lower /\ nth_error pts (nsamp - 1) = Some upper /\
  (forall i x, nth_error pts i = Some x ->
     exp x = exp lower + INR i * ((exp upper - exp lower) / (INR nsamp - 1))) /\
  (forall i x y, nth_error pts i = Some x -> nth_error pts (i + 1) = Some y -> x < y).
Proof. exact C46_proof. Qed.
Print Assumptions C46_exponential_points.

Example C46_case : @exp_spaced_points ROps 4 6 3 = [4; ln ((exp 4 + exp 6) / 2); 6].
Proof. exact w48_points. Qed.

(** C47.  For any number of iterations allowed the estimate is returned; it is the observed
    maximum plus the integral of the distribution of the selected events up to the previous
    estimate, its deviation combines the two, and either the last change is within the
    tolerance or all maximum_iterations + 1 passes were used (a budget of maximum_iterations
    passes is exhausted). *)
Theorem C47_kijko_result : forall fuel (mag sig : list R) neq nsamp tol maxit (mo : option (R * R)),
  mag <> [] -> length mag = length sig -> (2 <= nsamp)%nat -> 0 <= tol < 100000000 -> (maxit + 1 <= fuel)%nat ->
  exists om os sel n mmin prev d mmax sigma,
    (match mo with Some p => p = (om, os) | None => first_max mag sig om os end) /\
    @largest ROps mag neq = (sel, n) /\ is_min mmin sel /\
    @kijko_nonparametric_gauss ROps fuel mag sig neq nsamp tol maxit mo = Ok (mmax, sigma) /\
    @kijko_npg_intfunc_simps ROps (@exp_spaced_points ROps mmin prev nsamp) sel (@h_smooth ROps sel) n = Ok d /\
    mmax = om + d /\ sigma = sqrt (os * os + d * d) /\
    (Rabs (mmax - prev) <= tol \/
     @kijko_nonparametric_gauss ROps maxit mag sig neq nsamp tol maxit mo = Err OutOfFuel).
Proof. exact C47_proof. Qed.
Print Assumptions C47_kijko_result.

Example C47_case : exists r, @kijko_nonparametric_gauss ROps 12 [4; 6] [1/10; 2/10] 100 51 (1/1000) 10 None = Ok r.
Proof.
  destruct (C47_kijko_result 12 [4; 6] [1/10; 2/10] 100 51 (1/1000) 10 None)
    as (om & os & sel & n & mmin & prev & d & mmax & sigma & _ & _ & _ & E & _); try discriminate; auto; try lia; try lra.
  exists (mmax, sigma). exact E.
Qed.

(** C48, second half, is false: because of the lower tail of C45 the estimate may be below the
    largest magnitude of the catalogue. *)
Theorem C48_increment_refuted : exists (year mag sig : list R) tol maxit neq nsamp mmax sigma,
  length mag = length sig /\ 0 < tol /\ (2 <= nsamp)%nat /\ (length mag <= neq)%nat /\
  (forall fuel normals, (1 <= fuel)%nat ->
     @maximum_magnitude_analysis ROps fuel year mag sig "Kijko_Npg" tol maxit neq nsamp normals
     = Ok (mmax, sigma)) /\
  exists m, In m mag /\ mmax < m.
Proof. exact C48_refuted_proof. Qed.
Print Assumptions C48_increment_refuted.

(** C48, what holds: the integral of any values in [0,1] is the trapezoidal sum and lies
    between 0 and the width of the sample range.  Missing: the distribution function of the
    code leaves [0,1] when an event is more than five bandwidths above the smallest; C77 is
    the bound for the other catalogues. *)
Theorem C48_increment_partial : forall (mval cdf : list R) a b, length mval = length cdf ->
  (2 <= length mval)%nat -> increasing mval -> (forall c, In c cdf -> 0 <= c <= 1) ->
  nth_error mval 0 = Some a -> nth_error mval (length mval - 1) = Some b ->
  exists d, @integrate ROps mval cdf = Ok d /\ d = trapezoid mval cdf /\ 0 <= d <= b - a.
Proof. exact C48_bound_proof. Qed.
Print Assumptions C48_increment_partial.

Example C48_case : increasing [4; 5; 7] /\ (forall c, In c [0; 1/2; 1] -> 0 <= c <= 1).
Proof.
  split.
  - intros i a b Ha Hb. destruct i as [|[|i]]; simpl in Ha, Hb; try (inversion Ha; inversion Hb; lra).
    destruct i; simpl in Ha, Hb; [discriminate|destruct i; discriminate].
  - intros c [<-|[<-|[<-|[]]]]; lra.
Qed.

(** C77.  When every selected event is within five bandwidths of the smallest one, the estimate
    is at least the observed maximum and its deviation at least the observed one. *)
Theorem C77_kijko_at_least_observed : forall fuel (mag sig : list R) neq nsamp tol maxit mo sel n mmin om os mmax sigma,
  (2 <= nsamp)%nat -> 0 <= tol < 100000000 -> (maxit + 1 <= fuel)%nat -> mag <> [] -> length mag = length sig ->
  (match mo with Some p => p = (om, os) | None => first_max mag sig om os end) ->
  @largest ROps mag neq = (sel, n) -> is_min mmin sel -> mmin < om -> 0 < @h_smooth ROps sel ->
  (forall m, In m sel -> m <= mmin + 5 * @h_smooth ROps sel) ->
  @kijko_nonparametric_gauss ROps fuel mag sig neq nsamp tol maxit mo = Ok (mmax, sigma) ->
  om <= mmax /\ os <= sigma.
Proof. exact C77_proof. Qed.
Print Assumptions C77_kijko_at_least_observed.

Example C77_case : forall r, @kijko_nonparametric_gauss ROps 12 [4; 6] [1/10; 2/10] 100 51 (1/1000) 10 None = Ok r ->
  6 <= fst r /\ 2/10 <= snd r.
Proof.
  intros [mmax sigma] H.
  assert (HS := proj1 (C51_partial_proof [4; 6])). destruct HS as [_ HS].
  assert (R := fifth_root (INR (length [4; 6])) ltac:(simpl; lra)).
  assert (Q25 : @mquantile ROps [4; 6] (25/100) = 4).
  { destruct (C79_proof [4; 6] (25/100)) as (x & P & SX & Q & _); [simpl; lia|].
    rewrite Q. 2:{ unfold plotting_position. simpl. lra. }
    assert (x = [4; 6]).
    { apply (sorted_unique x [4; 6]); auto. ssorted. symmetry. auto. }
    subst. reflexivity. }
  assert (Q75 : @mquantile ROps [4; 6] (75/100) = 6).
  { destruct (C79_proof [4; 6] (75/100)) as (x & P & SX & _ & Q & _); [simpl; lia|].
    rewrite Q. 2:{ unfold plotting_position. simpl. lra. }
    assert (x = [4; 6]).
    { apply (sorted_unique x [4; 6]); auto. ssorted. symmetry. auto. }
    subst. reflexivity. }
  rewrite Q25, Q75 in HS. set (r := Rpower (INR (length [4; 6])) (- (1) / 5)) in *.
  assert (HH : 6/10 <= @h_smooth ROps [4; 6]).
  { unfold Rabs in HS. destruct (Rcase_abs _) in HS; lra. }
  apply (C77_kijko_at_least_observed 12 [4; 6] [1/10; 2/10] 100 51 (1/1000) 10 None [4; 6] 2 4 6 (2/10)); auto;
    try discriminate; try lia; try lra.
  - exists 1%nat. split; [reflexivity|]. split; [reflexivity|]. split.
    + intros x [<-|[<-|[]]]; lra.
    + intros k x L E. destruct k; [|lia]. inversion E. lra.
  - split; simpl; auto. intros y [<-|[<-|[]]]; lra.
  - intros m [<-|[<-|[]]]; lra.
Qed.

(** C78.  The estimate uses the number_earthquakes largest magnitudes, all of them if there are
    fewer. *)
Theorem C78_kijko_uses_largest : forall (mag : list R) neq sel n, (0 < neq)%nat -> @largest ROps mag neq = (sel, n) ->
  n = length sel /\ n = Nat.min neq (length mag) /\
  exists rest, Permutation mag (rest ++ sel) /\ forall x y, In x rest -> In y sel -> x <= y.
Proof. exact C78_proof. Qed.
Print Assumptions C78_kijko_uses_largest.

Example C78_case : exists sel n rest, @largest ROps [5; 7; 4] 2 = (sel, n) /\ n = 2%nat /\
  Permutation [5; 7; 4] (rest ++ sel) /\ (forall x y, In x rest -> In y sel -> x <= y).
Proof.
  destruct (@largest ROps [5; 7; 4] 2) as [sel n] eqn:E.
  destruct (C78_kijko_uses_largest [5; 7; 4] 2 sel n ltac:(lia) E) as (H1 & H2 & rest & H3 & H4).
  exists sel, n, rest. auto.
Qed.

(** C49.  The estimate is the magnitude of the width of the excess of the moment released over
    a uniform release. *)
Theorem C49_cumulative_moment : forall (zs : list Z) (mag : list R) first last, length zs = length mag ->
  In first zs -> In last zs -> (forall z, In z zs -> (first <= z <= last)%Z) ->
  exists hi lo, (first <= hi <= last)%Z /\ (first <= lo <= last)%Z /\
    (forall y, (first <= y <= last)%Z ->
       excess (combine zs mag) first last lo <= excess (combine zs mag) first last y
       <= excess (combine zs mag) first last hi) /\
    @cumulative_moment ROps (map IZR zs) mag
    = Ok (2 / 3 * (ln (excess (combine zs mag) first last hi - excess (combine zs mag) first last lo) / ln 10 - 905 / 100)).
Proof. exact C49_proof. Qed.
Print Assumptions C49_cumulative_moment.

(** C49.  The order of the events does not matter. *)
Theorem C49_order_irrelevant : forall (zs zs' : list Z) (mag mag' : list R), length zs = length mag -> length zs' = length mag' ->
  Permutation (combine zs mag) (combine zs' mag') ->
  @cumulative_moment ROps (map IZR zs) mag = @cumulative_moment ROps (map IZR zs') mag'.
Proof. exact C49_order_proof. Qed.
Print Assumptions C49_order_irrelevant.

(** C49.  Adding c to all magnitudes adds c, whenever the release is not perfectly uniform (when
    it is, the width is 0 and its logarithm minus infinity in the code). *)
Theorem C49_shift : forall (zs : list Z) (mag : list R) first last c v y, length zs = length mag ->
  In first zs -> In last zs -> (forall z, In z zs -> (first <= z <= last)%Z) ->
  (first <= y <= last)%Z -> excess (combine zs mag) first last y <> 0 ->
  @cumulative_moment ROps (map IZR zs) mag = Ok v ->
  @cumulative_moment ROps (map IZR zs) (map (fun m => m + c) mag) = Ok (v + c).
Proof. exact C49_shift_proof. Qed.
Print Assumptions C49_shift.

Example C49_case :
  let zs := [2000; 2001; 2003]%Z in let mag := [5; 6; 5] in
  In 2000%Z zs /\ In 2003%Z zs /\ (forall z, In z zs -> (2000 <= z <= 2003)%Z) /\
  excess (combine zs mag) 2000 2003 2001 <> 0.
Proof.
  cbv zeta. split; [simpl; auto|]. split; [simpl; auto|]. split. { intros z [<-|[<-|[<-|[]]]]; lia. }
  unfold excess, released. cbn [combine filter fst snd]. cbn [Z.leb Z.compare Pos.compare Pos.compare_cont map Rsum snd].
  replace (IZR (2001 - 2000 + 1)) with 2 by reflexivity. replace (IZR (2003 - 2000 + 1)) with 4 by reflexivity.
  assert (P1 := moment_pos 5). assert (P2 : seismic_moment 5 < seismic_moment 6).
  { unfold seismic_moment. apply Rpower_lt; lra. } lra.
Qed.

(** C50.  With zero uncertainties the bootstrap returns the estimate and deviation 0 whatever
    the random numbers. *)
Theorem C50_bootstrap_exact : forall (year mag : list R) (normals : list (list R)) v,
  @cumulative_moment ROps year mag = Ok v -> (2 <= length normals)%nat ->
  (forall z, In z normals -> length z = length mag) ->
  @cum_mo_uncertainty ROps year mag (map (fun _ => 0) mag) normals = Ok (v, 0).
Proof. exact C50_proof. Qed.
Print Assumptions C50_bootstrap_exact.

Example C50_case : exists v, @cumulative_moment ROps (map IZR [2000; 2001; 2003]%Z) [5; 6; 5] = Ok v /\
  @cum_mo_uncertainty ROps (map IZR [2000; 2001; 2003]%Z) [5; 6; 5] (map (fun _ => 0) [5; 6; 5]) [[1; -1; 2]; [0; 3; -7]] = Ok (v, 0).
Proof.
  destruct (C49_cumulative_moment [2000; 2001; 2003]%Z [5; 6; 5] 2000 2003) as (hi & lo & _ & _ & _ & E); simpl; auto.
  { intros z [<-|[<-|[<-|[]]]]; lia. }
  eexists. split. exact E. apply C50_bootstrap_exact; [exact E|simpl; lia|]. intros z [<-|[<-|[]]]; auto.
Qed.

(** C51, as stated, is false: the standard deviation is not used. *)
Theorem C51_silverman_refuted : exists mag : list R, (2 <= length mag)%nat /\
  ~ two_decimals (9/10 * Rmin (population_std mag) (iqr mag / (134/100)) * Rpower (INR (length mag)) (- (1) / 5))
      (@h_smooth ROps mag).
Proof. exact C51_refuted_proof. Qed.
Print Assumptions C51_silverman_refuted.

(** C51, what holds: the formula with the interquartile range only, rounded to two decimals;
    event order is irrelevant.  Missing: the standard deviation (refuted above). *)
Theorem C51_silverman_partial : forall mag : list R,
  two_decimals (9/10 * ((@mquantile ROps mag (75/100) - @mquantile ROps mag (25/100)) / (134/100))
                * Rpower (INR (length mag)) (- (1) / 5)) (@h_smooth ROps mag) /\
  forall mag', Permutation mag mag' -> @h_smooth ROps mag' = @h_smooth ROps mag.
Proof. exact C51_partial_proof. Qed.
Print Assumptions C51_silverman_partial.

Example C51_case : @h_smooth ROps w48 = 1 / 100 /\ (2 <= length w48)%nat.
Proof. split. exact w48_h. simpl. lia. Qed.

(** C79.  The quantiles used for the bandwidth: the piecewise linear function through the points
    (plotting position of rank i, i-th smallest magnitude), constant outside. *)
Theorem C79_quantile : forall (mag : list R) p, (2 <= length mag)%nat ->
  let n := length mag in
  exists x, Permutation mag x /\ StronglySorted Rle x /\
  (p <= plotting_position n 1 -> @mquantile ROps mag p = nth 0 x 0) /\
  (plotting_position n n <= p -> @mquantile ROps mag p = nth (n - 1) x 0) /\
  (forall i, (1 <= i < n)%nat -> plotting_position n i <= p <= plotting_position n (i + 1) ->
     @mquantile ROps mag p
     = nth (i - 1) x 0 + (p - plotting_position n i) / (plotting_position n (i + 1) - plotting_position n i)
         * (nth i x 0 - nth (i - 1) x 0)).
Proof. exact C79_proof. Qed.
Print Assumptions C79_quantile.

Example C79_case : plotting_position 11 3 <= 25/100 <= plotting_position 11 4 /\ @mquantile ROps w48 (25/100) = 5.
Proof. split; [unfold plotting_position; simpl; lra|exact w48_q25]. Qed.

(** C52, as stated, is false: a misspelt algorithm name yields magnitude 0 with deviation 0. *)
Theorem C52_dispatch_refuted : exists name, forall (AR : Ops) fuel (year mag sigma : list T) tol maxit neq nsamp normals,
  maximum_magnitude_analysis fuel year mag sigma name tol maxit neq nsamp normals = Ok (ofZ 0, ofZ 0).
Proof. exact C52_refuted_proof. Qed.
Print Assumptions C52_dispatch_refuted.

(** C52, what holds: the two names reach the two methods with their own arguments.  Missing: other
    names (refuted above). *)
Theorem C52_dispatch_partial : forall (AR : Ops) fuel (year mag sigma : list T) tol maxit neq nsamp normals,
  maximum_magnitude_analysis fuel year mag sigma "Kijko_Npg" tol maxit neq nsamp normals
    = kijko_nonparametric_gauss fuel mag sigma neq nsamp tol maxit None /\
  maximum_magnitude_analysis fuel year mag sigma "Cumulative_Moment" tol maxit neq nsamp normals
    = cum_mo_uncertainty year mag sigma normals.
Proof. exact C52_partial_proof. Qed.
Print Assumptions C52_dispatch_partial.

Example C52_case : @maximum_magnitude_analysis ROps 12 (map IZR [2000; 2001; 2003]%Z) [5; 6; 5] [0; 0; 0]
  "Cumulative_Moment" 1 1 1 1 [[1; -1; 2]; [0; 3; -7]]
  = match @cumulative_moment ROps (map IZR [2000; 2001; 2003]%Z) [5; 6; 5] with Ok v => Ok (v, 0) | Err e => Err e end.
Proof.
  destruct C50_case as (v & E1 & E2). rewrite E1. exact E2.
Qed.
