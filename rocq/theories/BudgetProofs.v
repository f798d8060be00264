(** Proofs for C112: the moment released by the rates of a fault. *)
From Coq Require Import Reals ZArith Bool Arith Lia Lra String List.
From Verif Require Import Base BaseFacts Ops RFacts CatUtil GeoProofs SimpleFault Tectonic FaultCalc FaultSpec FaultProofs BudgetSpec.
Import ListNotations.
Local Open Scope R_scope.

Lemma power_exp : forall k u, Rpower 10 (k * u) = exp (k * ln 10 * u).
Proof. intros. unfold Rpower. f_equal. ring. Qed.

Lemma derive_exp : forall k x, derivable_pt_lim (fun t => exp (k * t)) x (k * exp (k * x)).
Proof.
  intros k x. rewrite Rmult_comm. apply (derivable_pt_lim_comp (fun t => k * t) exp).
  - assert (H := derivable_pt_lim_scal id k x 1 (derivable_pt_lim_id x)). rewrite Rmult_1_r in H. exact H.
  - apply derivable_pt_lim_exp.
Qed.

(** The moment of a bin, at a magnitude inside it. *)
Lemma bin_moment : forall p q x y, 0 < p -> 0 < q -> x < y ->
  exists m, x < m < y /\ q / p * (exp (- p * x) - exp (- p * y)) * exp ((p + q) * m) = exp (q * y) - exp (q * x).
Proof.
  intros p q x y P Q H.
  set (G := exp (q * y) - exp (q * x)). set (F := exp (- p * x) - exp (- p * y)).
  destruct (MVT_cor2 (fun t => G * exp (- p * t) + F * exp (q * t)) (fun t => G * (- p * exp (- p * t)) + F * (q * exp (q * t))) x y H) as (m & E & I).
  { intros t _. apply (derivable_pt_lim_plus (fun t => G * exp (- p * t)) (fun t => F * exp (q * t))).
    - apply (derivable_pt_lim_scal (fun t => exp (- p * t))). apply derive_exp.
    - apply (derivable_pt_lim_scal (fun t => exp (q * t))). apply derive_exp. }
  exists m. split; auto.
  assert (Z : G * (- p * exp (- p * m)) + F * (q * exp (q * m)) = 0).
  { assert (Z : (G * (- p * exp (- p * m)) + F * (q * exp (q * m))) * (y - x) = 0) by (rewrite <- E; unfold F, G; ring).
    apply Rmult_integral in Z. destruct Z; lra. }
  replace ((p + q) * m) with (q * m + - (- p * m)) by ring. rewrite exp_plus, exp_Ropp.
  assert (EP : 0 < exp (- p * m)) by apply exp_pos. set (e := exp (- p * m)) in *. set (g := exp (q * m)) in *.
  apply (Rmult_eq_reg_r (p * e)); [|apply Rgt_not_eq; now apply Rmult_lt_0_compat].
  replace (q / p * F * (g * / e) * (p * e)) with (F * (q * g)) by (field; lra). lra.
Qed.

Lemma Rpower_sqrt_half : forall x, sqrt (Rpower 10 x) = Rpower 10 (x / 2).
Proof.
  intros x. apply sqrt_lem_1.
  - apply Rlt_le, Rpower_pos.
  - apply Rlt_le, Rpower_pos.
  - rewrite <- Rpower_plus. f_equal. field.
Qed.

Lemma rupture_length_pos : forall ratio mu width c d m, 0 < ratio -> 0 < mu -> 0 < width -> 0 < rupture_length ratio mu width c d m.
Proof.
  intros. unfold rupture_length. apply sqrt_lt_R0. apply Rdiv_lt_0_compat; [apply Rpower_pos|]. apply Rmult_lt_0_compat; auto. nra.
Qed.

(** The displacement of the largest earthquake. *)
Lemma largest_displacement : forall ratio mu width c d m, 0 < ratio -> 0 < mu -> 0 < width ->
  moment_slip ratio mu width c * Rpower 10 (d / 2 * m) = ratio * rupture_length ratio mu width c d m.
Proof.
  intros ratio mu width c d m R1 M1 W1. set (A := mu * 10000000000 * (width * 100000)).
  assert (AP : 0 < A) by (unfold A; nra).
  unfold moment_slip, rupture_length, seismic_moment. fold A.
  replace (d / 2 * m) with (d * m / 2) by field. rewrite <- Rpower_sqrt_half, <- sqrt_mult_alt.
  2: { apply Rlt_le. apply Rdiv_lt_0_compat; auto. apply Rmult_lt_0_compat; auto. apply Rpower_pos. }
  replace ratio with (sqrt (ratio * ratio)) at 2 by (apply sqrt_square; lra).
  rewrite <- sqrt_mult_alt by nra. f_equal. rewrite Rpower_plus. field. lra.
Qed.

Section Budget.
Variables (b d c slip ratio mu width mmax : R).
Hypotheses (HB : 0 < b < d) (HR : 0 < ratio) (HM : 0 < mu) (HW : 0 < width).
Let L := rupture_length ratio mu width c d mmax.
Let B := accumulation mu width L slip.
Let N := anderson_luco b d slip (moment_slip ratio mu width c) mmax.
Let S (x : R) := Rpower 10 ((d - b) * (x - mmax)).

Lemma scale_rate : forall x y, N x - N y
  = B / seismic_moment c d mmax * ((d - b) / b * (Rpower 10 (b * (mmax - x)) - Rpower 10 (b * (mmax - y)))).
Proof.
  intros x y. unfold N, anderson_luco, B, accumulation.
  assert (LP := rupture_length_pos ratio mu width c d mmax HR HM HW). fold L in LP.
  assert (BP := moment_slip_pos ratio mu width c HR HM HW).
  assert (D := largest_displacement ratio mu width c d mmax HR HM HW). fold L in D.
  assert (SL : seismic_moment c d mmax = ratio * (mu * 10000000000 * (width * 100000)) * (L * L)).
  { unfold L, rupture_length. rewrite sqrt_sqrt. 2: { apply Rlt_le. apply Rdiv_lt_0_compat; [apply Rpower_pos|]. apply Rmult_lt_0_compat; auto. nra. }
    field. lra. }
  rewrite SL. replace (- (d / 2) * mmax) with (- (d / 2 * mmax)) by ring. rewrite Rpower_Ropp.
  set (P := Rpower 10 (d / 2 * mmax)) in *. assert (PP : 0 < P) by apply Rpower_pos.
  set (be := moment_slip ratio mu width c) in *.
  replace be with (ratio * L / P) by (rewrite <- D; field; lra). field. repeat split; lra.
Qed.

Lemma bin_release : forall x y, x < y -> exists m, x < m < y /\ (N x - N y) * seismic_moment c d m = B * (S y - S x).
Proof.
  intros x y H. assert (LN := ln_10_lower). set (l := ln 10) in *.
  destruct (bin_moment (b * l) ((d - b) * l) (x - mmax) (y - mmax)) as (m & I & E); try nra.
  exists (m + mmax). split; [lra|]. rewrite scale_rate.
  assert (M : seismic_moment c d (m + mmax) = seismic_moment c d mmax * exp ((b * l + (d - b) * l) * m)).
  { unfold seismic_moment, l. replace (c + d * (m + mmax)) with (c + d * mmax + d * m) by ring. rewrite Rpower_plus. f_equal.
    rewrite power_exp. f_equal. ring. }
  rewrite M. assert (MP : 0 < seismic_moment c d mmax) by apply Rpower_pos. unfold S. rewrite !power_exp. fold l. rewrite <- E.
  replace (b * l * (mmax - x)) with (- (b * l) * (x - mmax)) by ring. replace (b * l * (mmax - y)) with (- (b * l) * (y - mmax)) by ring.
  field. split; [lra|]. split; [nra|lra].
Qed.

End Budget.

Lemma map2_release : forall (rates : list R) (S e : nat -> R) g n,
  (forall k r, nth_error rates k = Some r -> exists m, e (n + k)%nat < m < e (n + k + 1)%nat /\ r * g m = S (n + k + 1)%nat - S (n + k)%nat) ->
  exists ms, length ms = length rates /\ (forall k m, nth_error ms k = Some m -> e (n + k)%nat < m < e (n + k + 1)%nat) /\
    Rsum (map2 (fun r m => r * g m) rates ms) = S (n + length rates)%nat - S n.
Proof.
  intros rates S e g. induction rates as [|r rates IH]; intros n H.
  - exists []. split; auto. split; [intros [|k] m E; discriminate|]. cbn [map2 Rsum length]. rewrite Nat.add_0_r. ring.
  - destruct (H 0%nat r eq_refl) as (m & I & E). destruct (IH (n + 1)%nat) as (ms & L & J & Q).
    { intros k r' Hk. destruct (H (Datatypes.S k) r' Hk) as (m' & I' & E'). exists m'.
      replace (n + 1 + k)%nat with (n + Datatypes.S k)%nat by lia. auto. }
    exists (m :: ms). split; [simpl; lia|]. split.
    + intros [|k] m' Hm; [injection Hm as <-; exact I|]. replace (n + Datatypes.S k)%nat with (n + 1 + k)%nat by lia. apply J. exact Hm.
    + cbn [map2 Rsum length]. rewrite Q, E. rewrite Nat.add_0_r. replace (n + 1 + length rates)%nat with (n + Datatypes.S (length rates))%nat by lia. ring.
Qed.

(** Moments at the lower edges are smaller. *)
Lemma edge_release : forall c d (rates ms : list R) (e : nat -> R) n, 0 < d -> (forall r, In r rates -> 0 < r) -> length ms = length rates ->
  (forall k m, nth_error ms k = Some m -> e (n + k)%nat < m < e (n + k + 1)%nat) ->
  Rsum (map2 (fun r m => r * seismic_moment c d m) rates (map e (seq n (length rates))))
  <= Rsum (map2 (fun r m => r * seismic_moment c d m) rates ms).
Proof.
  intros c d rates. induction rates as [|r rates IH]; intros [|m ms] e n D P L H; try discriminate; [cbn; lra|].
  cbn [length seq map map2 Rsum]. apply Rplus_le_compat.
  - apply Rmult_le_compat_l; [apply Rlt_le; apply P; now left|]. unfold seismic_moment. apply Rle_Rpower; [lra|].
    assert (Q := H 0%nat m eq_refl). rewrite Nat.add_0_r in Q. nra.
  - apply IH; auto.
    + intros q Hq. apply P. now right.
    + intros k m' Hk. replace (Datatypes.S n + k)%nat with (n + Datatypes.S k)%nat by lia. apply H. exact Hk.
Qed.

Definition edges_of (min w : R) (k : nat) : R := min + (INR k - 1 / 2) * w.

Lemma C112_budget_proof : forall (wc : R -> option R -> R) (slip asc b min w : R) (mm rake : option R) (c d : R) rid msr smod dlr trace upp low dip tr sf
  (rates : list R) mu ratio,
  0 < slip -> 0 <= asc < 1 -> 0 < w -> 0 < b < d ->
  @region_init ROps rid msr smod dlr = Ok tr ->
  @simple_fault_init ROps trace upp low dip = Ok sf ->
  @shear_mod_first_value ROps tr = Ok mu -> @disp_length_ratio_first_value ROps tr = Ok ratio ->
  @get_mfd ROps wc slip asc tr sf b min w mm rake (c, d) = Ok rates ->
  let mmax := match mm with Some m => m | None => wc (@get_area ROps sf) rake end in
  let width := @get_width ROps sf in
  let supply := accumulation mu width (rupture_length ratio mu width c d mmax) (slip * (1 - asc)) in
  let edge k := min + (INR k - 1 / 2) * w in
  let released ms := Rsum (map2 (fun r m => r * seismic_moment c d m) rates ms) in
  0 < supply /\
  (exists ms, length ms = length rates /\ (forall k m, nth_error ms k = Some m -> edge k < m < edge (k + 1)%nat) /\
     released ms = supply * (Rpower 10 ((d - b) * (edge (length rates) - mmax)) - Rpower 10 ((d - b) * (edge 0%nat - mmax)))) /\
  released (map edge (seq 0 (length rates))) < supply * Rpower 10 ((d - b) * (w / 2)) /\
  (edge (length rates) <= mmax -> released (map edge (seq 0 (length rates))) < supply).
Proof.
  intros wc slip asc b min w mm rake c d rid msr smod dlr trace upp low dip tr sf rates mu ratio HS HA HW HB HT HF HM HR HG mmax width supply edge released.
  destruct (C56_accessors_proof _ _ _ _ _ HT) as (mu' & ratio' & M1 & M2 & R1 & R2 & _).
  rewrite HM in M1. injection M1 as <-. rewrite HR in R1. injection R1 as <-.
  destruct (C55_geometry_proof _ _ _ _ _ HF) as (_ & _ & _ & WP & _). fold width in WP.
  assert (SP : 0 < supply).
  { unfold supply, accumulation. apply Rmult_lt_0_compat; [|nra]. apply Rmult_lt_0_compat; [nra|]. now apply rupture_length_pos. }
  split; [exact SP|].
  destruct (C53_proof wc slip asc tr sf b min w mm rake c d mu ratio HS HA HW ltac:(lra) HM HR) as (rates' & E & LN & V & _).
  rewrite HG in E. injection E as <-. rops. fold mmax in LN, V. fold width in V.
  assert (POS : forall r, In r rates -> 0 < r).
  { intros r I. apply (C53_positive_proof wc slip asc b min w mm rake c d rid msr smod dlr trace upp low dip tr sf rates HS HA HW HB HT HF HG r I). }
  destruct (map2_release rates (fun k => supply * Rpower 10 ((d - b) * (edge k - mmax))) edge (seismic_moment c d) 0) as (ms & LM & I & Q).
  { intros k r Hk. cbn [Nat.add]. assert (EK : edge k < edge (k + 1)%nat) by (unfold edge; rewrite plus_INR; simpl (INR 1); nra).
    destruct (bin_release b d c (slip * (1 - asc)) ratio mu width mmax HB R2 M2 WP (edge k) (edge (k + 1)%nat) EK) as (m & J & F).
    exists m. split; auto. rewrite (V k r Hk). fold (edge k).
    replace (min + (INR k + 1 / 2) * w) with (edge (k + 1)%nat) by (unfold edge; rewrite plus_INR; simpl (INR 1); lra).
    rewrite F. fold supply. ring. }
  assert (RM : released ms = supply * (Rpower 10 ((d - b) * (edge (length rates) - mmax)) - Rpower 10 ((d - b) * (edge 0%nat - mmax)))).
  { unfold released. rewrite Q. cbn [Nat.add]. ring. }
  split. { exists ms. split; auto. }
  assert (LE : released (map edge (seq 0 (length rates))) <= released ms).
  { unfold released. apply edge_release; auto. lra. }
  assert (P0 : 0 < Rpower 10 ((d - b) * (edge 0%nat - mmax))) by apply Rpower_pos.
  assert (TOP : edge (length rates) <= mmax + w / 2 \/ length rates = 0%nat).
  { destruct (length rates) as [|n] eqn:EL; [now right|left]. assert (K : min + INR n * w < mmax) by (apply LN; lia).
    unfold edge. rewrite S_INR. lra. }
  split.
  - destruct TOP as [TOP|TOP].
    + assert (U : Rpower 10 ((d - b) * (edge (length rates) - mmax)) <= Rpower 10 ((d - b) * (w / 2))) by (apply Rle_Rpower; [lra|nra]).
      rewrite RM in LE. nra.
    + rewrite TOP. cbn [seq map]. unfold released. destruct rates; [|discriminate]. cbn [map2 Rsum].
      apply Rmult_lt_0_compat; auto. apply Rpower_pos.
  - intros T. assert (U : Rpower 10 ((d - b) * (edge (length rates) - mmax)) <= 1).
    { rewrite <- (Rpower_O 10) by lra. apply Rle_Rpower; [lra|nra]. }
    rewrite RM in LE. nra.
Qed.

(** With a given maximum magnitude the rates do not depend on the length. *)
Lemma C112_width_proof : forall (AR : Ops) (wc : T -> option T -> T) (slip asc : T) tr sf sf' (b min w m : T) rake scaling,
  @get_width AR sf = @get_width AR sf' ->
  @get_mfd AR wc slip asc tr sf b min w (Some m) rake scaling = @get_mfd AR wc slip asc tr sf' b min w (Some m) rake scaling.
Proof. intros. unfold get_mfd. rewrite H. reflexivity. Qed.

Lemma power_unbounded : forall k X, 0 < k -> exists M, forall m, M <= m -> X < Rpower 10 (k * m).
Proof.
  intros k X K. set (Y := Rabs X + 1). assert (YP : 0 < Y) by (unfold Y; pose proof (Rabs_pos X); lra).
  assert (LN := ln_10_lower). exists (ln Y / ln 10 / k). intros m Hm.
  assert (E : Rpower 10 (k * (ln Y / ln 10 / k)) = Y).
  { unfold Rpower. replace (k * (ln Y / ln 10 / k) * ln 10) with (ln Y) by (field; lra). now apply exp_ln. }
  apply Rlt_le_trans with Y; [unfold Y; pose proof (RRle_abs X); lra|]. rewrite <- E. apply Rle_Rpower; [lra|]. apply Rmult_le_compat_l; lra.
Qed.

Lemma C112_refuted_proof : forall (wc : R -> option R -> R) rake rid msr smod dlr trace upp low dip tr sf mu ratio,
  @region_init ROps rid msr smod dlr = Ok tr ->
  @simple_fault_init ROps trace upp low dip = Ok sf ->
  @shear_mod_first_value ROps tr = Ok mu -> @disp_length_ratio_first_value ROps tr = Ok ratio ->
  exists M, forall m, M <= m ->
    exists rates, @get_mfd ROps wc 1 0 tr sf 1 (m - 1 / 2) 1 (Some m) rake (@MOMENT_SCALING ROps) = Ok rates /\
      accumulation mu (@get_width ROps sf) (@get_length ROps sf * 100000) 1
      < Rsum (map (fun r => r * seismic_moment (1605 / 100) (15 / 10) (m - 1)) rates).
Proof.
  intros wc rake rid msr smod dlr trace upp low dip tr sf mu ratio HT HF HM HR.
  destruct (C56_accessors_proof _ _ _ _ _ HT) as (mu' & ratio' & M1 & M2 & R1 & R2 & _).
  rewrite HM in M1. injection M1 as <-. rewrite HR in R1. injection R1 as <-.
  destruct (C55_geometry_proof _ _ _ _ _ HF) as (_ & _ & _ & WP & _).
  set (width := @get_width ROps sf) in *. set (Lf := @get_length ROps sf * 100000).
  set (c := 1605 / 100). set (d := 15 / 10). set (kap := (1 - Rpower 10 (- (1 / 2))) * Rpower 10 (- d)).
  assert (KP : 0 < kap).
  { unfold kap. apply Rmult_lt_0_compat; [|apply Rpower_pos].
    assert (Rpower 10 (- (1 / 2)) < Rpower 10 0) by (apply Rpower_lt; lra). rewrite Rpower_O in H by lra. lra. }
  assert (BP := moment_slip_pos ratio mu width c R2 M2 WP). set (be := moment_slip ratio mu width c) in *.
  destruct (power_unbounded (d / 2) (Lf * ratio / (kap * be)) ltac:(unfold d; lra)) as (M & HMx).
  exists M. intros m Hm. specialize (HMx m Hm).
  destruct (C53_proof wc 1 0 tr sf 1 (m - 1 / 2) 1 (Some m) rake c d mu ratio ltac:(lra) ltac:(lra) ltac:(lra) ltac:(lra) HM HR)
    as (rates & E & LN & V & _). fold width in V. fold be in V. rops.
  exists rates. split; [exact E|].
  assert (L1 : length rates = 1%nat).
  { assert (H0 : (0 < length rates)%nat) by (apply LN; simpl (INR 0); lra).
    assert (H1 : ~ (1 < length rates)%nat) by (intros H; apply LN in H; simpl (INR 1) in H; lra). lia. }
  destruct rates as [|r [|]]; try discriminate. assert (VR := V 0%nat r eq_refl). simpl (INR 0) in VR.
  replace (m - 1 / 2 + (0 - 1 / 2) * 1) with (m - 1) in VR by lra. replace (m - 1 / 2 + (0 + 1 / 2) * 1) with m in VR by lra.
  destruct (bin_release 1 d c (1 * (1 - 0)) ratio mu width m ltac:(unfold d; lra) R2 M2 WP (m - 1) m ltac:(lra)) as (m' & I & F).
  fold be in F. rewrite <- VR in F. set (L := rupture_length ratio mu width c d m) in *.
  assert (RP : 0 < r).
  { apply (C53_positive_proof wc 1 0 1 (m - 1 / 2) 1 (Some m) rake c d rid msr smod dlr trace upp low dip tr sf [r]); auto; try lra; [unfold d; lra|now left]. }
  cbn [map Rsum]. rewrite Rplus_0_r. fold c d.
  set (B := accumulation mu width L (1 * (1 - 0))) in *.
  assert (F2 : (d - 1) * (m - m) = 0) by ring. rewrite F2, Rpower_O in F by lra.
  replace ((d - 1) * (m - 1 - m)) with (- (1 / 2)) in F by (unfold d; field).
  assert (LO : seismic_moment c d m' * Rpower 10 (- d) <= seismic_moment c d (m - 1)).
  { unfold seismic_moment. rewrite <- Rpower_plus. apply Rle_Rpower; [lra|]. unfold d. lra. }
  assert (G : B * kap <= r * seismic_moment c d (m - 1)).
  { replace (B * kap) with (r * (seismic_moment c d m' * Rpower 10 (- d))) by (unfold kap; rewrite <- !Rmult_assoc, F; ring).
    apply Rmult_le_compat_l; lra. }
  apply Rlt_le_trans with (B * kap); [|exact G].
  assert (D := largest_displacement ratio mu width c d m R2 M2 WP). fold be L in D.
  assert (H : Lf < L * kap).
  { apply (Rmult_lt_compat_r (kap * be)) in HMx; [|now apply Rmult_lt_0_compat].
    replace (Lf * ratio / (kap * be) * (kap * be)) with (Lf * ratio) in HMx by (field; lra).
    replace (Rpower 10 (d / 2 * m) * (kap * be)) with (L * kap * ratio) in HMx by (transitivity (kap * (be * Rpower 10 (d / 2 * m))); [rewrite D; ring|ring]).
    apply (Rmult_lt_reg_r ratio); lra. }
  unfold B, accumulation. set (A := mu * 10000000000 * (width * 100000)). assert (AP : 0 < A) by (unfold A; nra).
  replace (A * L * (1 * (1 - 0) / 10) * kap) with (A * (L * kap) * (1 / 10)) by field.
  replace (A * Lf * (1 / 10)) with (A * Lf * (1 / 10)) by ring.
  apply Rmult_lt_compat_r; [lra|]. now apply Rmult_lt_compat_l.
Qed.
