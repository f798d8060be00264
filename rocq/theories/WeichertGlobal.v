(** Weichert's iteration beyond the neighbourhood of the estimate (C42, C93): how fast the
    curvature of the log-likelihood can change, how close a returned value is to the estimate,
    convergence from the left of the estimate, and a divergent start. *)
From Coq Require Import String ZArith Arith Bool List Lia Reals Lra.
From Verif Require Import Base Ops BaseFacts RFacts SteppSpec Recurrence RecurrenceSpec SteppProofs
  RecurrenceProofs WeichertProofs WeichertNewton WeichertLocal.
Import ListNotations.
Local Open Scope R_scope.

Lemma Rsum_scale_le : forall A (f g : A -> R) B l, (forall p, In p l -> f p <= B * g p) ->
  Rsum (map f l) <= B * Rsum (map g l).
Proof.
  induction l; intros H; cbn [map Rsum]; [lra|].
  assert (X := H a (or_introl eq_refl)).
  assert (Y := IHl (fun p Ip => H p (or_intror Ip))). lra.
Qed.

(** Sum of squares about any point. *)
Lemma wsq_about : forall bins beta c, durations_positive bins -> bins <> [] ->
  Rsum (map (fun p => fst p * exp (- beta * snd p) * ((snd p - c) * (snd p - c))) bins)
  = wmom 0 bins beta * (wvar bins beta + (wmu bins beta - c) * (wmu bins beta - c)).
Proof.
  intros bins beta c P NE. assert (W := wmom0_pos bins beta P NE).
  assert (E : forall l, Rsum (map (fun p => fst p * exp (- beta * snd p) * ((snd p - c) * (snd p - c))) l)
    = wmom 2 l beta - 2 * c * wmom 1 l beta + c * c * wmom 0 l beta).
  { intros l. unfold wmom. induction l; cbn [map Rsum]; [lra|]. rewrite IHl. cbn [pow]. ring. }
  rewrite E. unfold wvar, wmu. field. lra.
Qed.

Lemma wvar_ratio_gen : forall bins b b' A B, durations_positive bins -> bins <> [] -> 0 < A -> 0 < B ->
  (forall p, In p bins -> A <= exp (- (b' - b) * snd p) <= B) ->
  wvar bins b' <= B / A * wvar bins b.
Proof.
  intros bins b b' A B P NE HA HB H.
  assert (W := wmom0_pos bins b P NE). assert (W' := wmom0_pos bins b' P NE).
  set (mu := wmu bins b).
  assert (E := wsq_about bins b mu P NE). fold mu in E. assert (E' := wsq_about bins b' mu P NE).
  assert (SP : forall p : R * R, exp (- b' * snd p) = exp (- b * snd p) * exp (- (b' - b) * snd p)).
  { intros p. rewrite <- exp_plus. f_equal. ring. }
  assert (X : Rsum (map (fun p => fst p * exp (- b' * snd p) * ((snd p - mu) * (snd p - mu))) bins)
    <= B * Rsum (map (fun p => fst p * exp (- b * snd p) * ((snd p - mu) * (snd p - mu))) bins)).
  { apply Rsum_scale_le. intros p I. rewrite SP. destruct (H p I) as [_ H2]. assert (T := P p I).
    assert (e := exp_pos (- b * snd p)).
    assert (0 <= (snd p - mu) * (snd p - mu)) by apply Rle_0_sqr.
    assert (0 <= fst p * exp (- b * snd p) * ((snd p - mu) * (snd p - mu))).
    { apply Rmult_le_pos; auto. apply Rmult_le_pos; lra. }
    replace (fst p * (exp (- b * snd p) * exp (- (b' - b) * snd p)) * ((snd p - mu) * (snd p - mu)))
      with (exp (- (b' - b) * snd p) * (fst p * exp (- b * snd p) * ((snd p - mu) * (snd p - mu)))) by ring.
    apply Rmult_le_compat_r; auto. }
  assert (Y : wmom 0 bins b <= / A * wmom 0 bins b').
  { unfold wmom. apply (Rsum_scale_le _ (fun p => fst p * snd p ^ 0 * exp (- b * snd p))
      (fun p => fst p * snd p ^ 0 * exp (- b' * snd p))). intros p I. rewrite SP. cbn [pow].
    destruct (H p I) as [H1 _]. assert (T := P p I). assert (e := exp_pos (- b * snd p)).
    assert (0 < fst p * exp (- b * snd p)) by (apply Rmult_lt_0_compat; auto).
    replace (/ A * (fst p * 1 * (exp (- b * snd p) * exp (- (b' - b) * snd p))))
      with (fst p * exp (- b * snd p) * (exp (- (b' - b) * snd p) / A)) by (field; lra).
    rewrite <- (Rmult_1_r (fst p * 1 * _)) . rewrite Rmult_1_r.
    replace (fst p * 1 * exp (- b * snd p)) with (fst p * exp (- b * snd p) * 1) by ring.
    apply Rmult_le_compat_l; [lra|]. apply (Rmult_le_reg_r A); auto. unfold Rdiv.
    rewrite Rmult_assoc, Rinv_l by lra. lra. }
  rewrite E, E' in X. replace (mu - mu) with 0 in X by ring. rewrite Rmult_0_l, Rplus_0_r in X.
  assert (S2 : 0 <= (wmu bins b' - mu) * (wmu bins b' - mu)) by apply Rle_0_sqr.
  assert (V : 0 <= wvar bins b).
  { apply (Rmult_le_reg_l (wmom 0 bins b)); auto. rewrite Rmult_0_r.
    replace (wmom 0 bins b * wvar bins b) with (wmom 0 bins b * (wvar bins b + (mu - mu) * (mu - mu))) by ring.
    rewrite <- E. apply Rsum_nonneg. intros x Hx. apply in_map_iff in Hx. destruct Hx as [p [<- I]].
    assert (T := P p I). assert (e := exp_pos (- b * snd p)).
    apply Rmult_le_pos. apply Rmult_le_pos; lra. apply Rle_0_sqr. }
  apply (Rmult_le_reg_l (wmom 0 bins b')); auto.
  apply Rle_trans with (B * (wmom 0 bins b * wvar bins b)).
  { eapply Rle_trans; [|exact X]. apply Rmult_le_compat_l; lra. }
  apply Rle_trans with (B * (/ A * wmom 0 bins b' * wvar bins b)).
  { apply Rmult_le_compat_l; [lra|]. apply Rmult_le_compat_r; auto. }
  right. field. lra.
Qed.

(** The curvature changes at most by the factor exp (range * distance). *)
Lemma wvar_ratio : forall bins b b' lo hi, durations_positive bins -> bins <> [] ->
  mags_within lo hi bins ->
  wvar bins b' <= exp ((hi - lo) * Rabs (b' - b)) * wvar bins b.
Proof.
  intros bins b b' lo hi P NE MW.
  assert (MON : forall x y, x <= y -> exp x <= exp y).
  { intros x y [H|H]; [left; apply exp_increasing; auto|rewrite H; lra]. }
  destruct (Rle_dec b b') as [H|H].
  - rewrite Rabs_right by lra.
    assert (X := wvar_ratio_gen bins b b' (exp (- (b' - b) * hi)) (exp (- (b' - b) * lo)) P NE
      (exp_pos _) (exp_pos _)).
    replace (exp ((hi - lo) * (b' - b))) with (exp (- (b' - b) * lo) / exp (- (b' - b) * hi)).
    + apply X. intros p I. destruct (MW p I). split; apply MON; nra.
    + unfold Rdiv. rewrite <- exp_Ropp, <- exp_plus. f_equal. ring.
  - rewrite Rabs_left by lra.
    assert (X := wvar_ratio_gen bins b b' (exp (- (b' - b) * lo)) (exp (- (b' - b) * hi)) P NE
      (exp_pos _) (exp_pos _)).
    replace (exp ((hi - lo) * - (b' - b))) with (exp (- (b' - b) * hi) / exp (- (b' - b) * lo)).
    + apply X. intros p I. destruct (MW p I). split; apply MON; nra.
    + unfold Rdiv. rewrite <- exp_Ropp, <- exp_plus. f_equal. ring.
Qed.

Lemma exp_06 : exp (6 / 10) <= 2.
Proof.
  assert (X := exp_ineq1_le (- (2 / 10))). assert (e := exp_pos (2 / 10)). rewrite exp_Ropp in X.
  assert (Y : exp (2 / 10) <= 5 / 4).
  { apply (Rmult_le_reg_l (/ exp (2 / 10))). apply Rinv_0_lt_compat; auto.
    rewrite Rinv_l by lra. lra. }
  replace (6 / 10) with (2 / 10 + 2 / 10 + 2 / 10) by lra. rewrite !exp_plus.
  set (z := exp (2 / 10)) in *. nra.
Qed.

(** After a short Newton step the estimate exists and is no further away than the step. *)
Lemma step_accuracy : forall bins N S lo hi b, durations_positive bins ->
  (exists p q, In p bins /\ In q bins /\ snd p <> snd q) -> 0 < N -> mags_within lo hi bins ->
  let h := newton bins N S b - b in (hi - lo) * Rabs h <= 3 / 10 ->
  exists best, dL bins N S best = 0 /\ Rabs (newton bins N S b - best) <= Rabs h.
Proof.
  intros bins N S lo hi b P TD HN MW h HU.
  assert (NE := bins_ne bins TD).
  assert (Q := d2L_neg bins N P TD HN).
  assert (LH : lo <= hi).
  { destruct TD as (p & _ & I & _). destruct (MW p I). lra. }
  assert (EH : dL bins N S b = - d2L bins N b * h).
  { unfold h, newton. field. specialize (Q b). lra. }
  assert (CV : continuity (dL bins N S)) by (apply dL_continuity; auto).
  assert (FAR : forall c, Rabs (c - b) <= 2 * Rabs h -> wvar bins b <= 2 * wvar bins c).
  { intros c Hc. assert (X := wvar_ratio bins c b lo hi P NE MW).
    assert (V := wvar_pos bins c P TD). eapply Rle_trans; [exact X|].
    apply Rmult_le_compat_r; [lra|]. eapply Rle_trans; [|exact exp_06].
    assert (Y : (hi - lo) * Rabs (b - c) <= 6 / 10).
    { rewrite Rabs_minus_sym. assert (hi - lo >= 0) by lra. nra. }
    destruct Y as [Y|Y]; [left; apply exp_increasing; auto|rewrite Y; lra]. }
  assert (NB : newton bins N S b = b + h) by (unfold h; ring).
  destruct (Rtotal_order h 0) as [H|[H|H]].
  - assert (R1 : Rabs h = - h) by (apply Rabs_left; auto).
    destruct (dL_mvt bins N S (b + 2 * h) b P NE) as (c & E & L1 & L2); [lra|].
    assert (F := FAR c). rewrite R1, Rabs_left in F by lra. assert (F1 := F ltac:(lra)). clear F.
    assert (D : 0 <= dL bins N S (b + 2 * h)).
    { assert (dL bins N S (b + 2 * h) = dL bins N S b + d2L bins N c * (2 * h)) by lra.
      rewrite H0, EH. unfold d2L in *.
      replace (- (- N * wvar bins b) * h + - N * wvar bins c * (2 * h))
        with (N * (- h) * (2 * wvar bins c - wvar bins b)) by ring.
      apply Rmult_le_pos; [|lra]. apply Rmult_le_pos; lra. }
    assert (D0 : dL bins N S b <= 0).
    { rewrite EH. specialize (Q b). nra. }
    destruct (IVT_cor (dL bins N S) (b + 2 * h) b CV) as (z & Z1 & Z2); [lra|nra|].
    exists z. split; auto. rewrite NB, R1. apply Rabs_le. lra.
  - exists b. split. rewrite EH, H. ring. rewrite NB, H. replace (b + 0 - b) with 0 by ring. lra.
  - assert (R1 : Rabs h = h) by (apply Rabs_right; lra).
    destruct (dL_mvt bins N S b (b + 2 * h) P NE) as (c & E & L1 & L2); [lra|].
    assert (F := FAR c). rewrite R1, Rabs_right in F by lra. assert (F1 := F ltac:(lra)). clear F.
    assert (D : dL bins N S (b + 2 * h) <= 0).
    { assert (dL bins N S (b + 2 * h) = dL bins N S b + d2L bins N c * (2 * h)) by lra.
      rewrite H0, EH. unfold d2L in *.
      replace (- (- N * wvar bins b) * h + - N * wvar bins c * (2 * h))
        with (- (N * h * (2 * wvar bins c - wvar bins b))) by ring.
      assert (0 <= N * h * (2 * wvar bins c - wvar bins b)).
      { apply Rmult_le_pos; [|lra]. apply Rmult_le_pos; lra. } lra. }
    assert (D0 : 0 <= dL bins N S b).
    { rewrite EH. specialize (Q b). nra. }
    destruct (IVT_cor (dL bins N S) b (b + 2 * h) CV) as (z & Z1 & Z2); [lra|nra|].
    exists z. split; auto. rewrite NB, R1. apply Rabs_le. lra.
Qed.

(** ** C93: a returned value is the estimate *)

Lemma C93_proof : forall fuel (tper fmag nobs : list R) f0 f1 rest lo hi mrate beta itstab b sb a sa,
  fmag = f0 :: f1 :: rest -> f0 <> f1 ->
  length tper = length fmag -> (forall t, In t tper -> 0 < t) -> 0 < Rsum nobs ->
  (forall m, In m fmag -> lo <= m <= hi) -> (hi - lo) * itstab <= 3 / 10 ->
  @weichert ROps fuel tper fmag nobs mrate beta itstab = Ok (b, sb, a, sa) ->
  let L := weichert_loglik (combine tper fmag) (Rsum nobs) (Rsum (map2 Rmult nobs fmag)) in
  exists best (L' : R -> R) d2 r,
    (forall x, x <> best -> L x < L best) /\ Rabs (b * ln 10 - best) <= itstab /\
    (forall x, derivable_pt_lim L x (L' x)) /\ derivable_pt_lim L' best d2 /\ d2 < 0 /\
    sb * ln 10 = r * sqrt (1 / - d2) /\
    exp (- ((hi - lo) * itstab)) <= r <= exp ((hi - lo) * itstab).
Proof.
  intros fuel tper fmag nobs f0 f1 rest lo hi mrate beta itstab b sb a sa EF D LE TP NP MW HT H L.
  set (bins := combine tper fmag) in *. set (N := Rsum nobs) in *.
  set (S := Rsum (map2 Rmult nobs fmag)) in *.
  assert (P : durations_positive bins).
  { intros [t m] I. apply in_combine_l in I. simpl. auto. }
  assert (TD := two_bins_distinct tper fmag f0 f1 rest LE EF D). fold bins in TD.
  assert (NE := bins_ne bins TD).
  assert (MB : mags_within lo hi bins).
  { intros [t m] I. apply in_combine_r in I. simpl. auto. }
  assert (LH : lo <= hi). { destruct TD as (p & _ & I & _). destruct (MB p I). lra. }
  assert (L10 := ln10_pos).
  unfold weichert in H. rewrite EF in H. rewrite <- EF in H.
  apply loop_ok in H; auto. destruct H as (beta0 & ST & R). fold bins N S in ST.
  unfold weichert_result in R. fold bins N S in R. cbv zeta in R.
  destruct (step_accuracy bins N S lo hi beta0 P TD NP MB) as (best & B1 & B2).
  { eapply Rle_trans; [|exact HT]. apply Rmult_le_compat_l; [lra|exact ST]. }
  injection R. intros _ _ Rc Rd. clear R.
  assert (V0 := wvar_pos bins beta0 P TD). assert (V1 := wvar_pos bins best P TD).
  exists best, (dL bins N S), (d2L bins N best), (sqrt (wvar bins best / wvar bins beta0)).
  split. { apply estimate_max; auto. }
  split. { rewrite Rd. replace (newton bins N S beta0 / ln 10 * ln 10) with (newton bins N S beta0) by (field; lra). lra. }
  split. { intros x. apply dL_deriv; auto. }
  split. { apply d2L_deriv; auto. }
  split. { apply d2L_neg; auto. }
  split.
  { rewrite Rc. unfold d2L. rewrite <- sqrt_mult.
    - replace (sqrt (- (1) / (- N * wvar bins beta0)) / ln 10 * ln 10) with (sqrt (- (1) / (- N * wvar bins beta0))) by (field; lra).
      f_equal. field. repeat split; lra.
    - left. apply Rdiv_lt_0_compat; auto.
    - left. apply Rdiv_lt_0_compat; [lra|]. nra. }
  assert (DIST : Rabs (beta0 - best) <= 2 * itstab).
  { replace (beta0 - best) with (- (newton bins N S beta0 - beta0) + (newton bins N S beta0 - best)) by ring.
    eapply Rle_trans; [apply Rabs_triang|]. rewrite Rabs_Ropp. lra. }
  assert (MON : forall x y, x <= y -> exp x <= exp y).
  { intros x y [Q|Q]; [left; apply exp_increasing; auto|rewrite Q; lra]. }
  assert (ED : exp ((hi - lo) * Rabs (beta0 - best)) <= exp ((hi - lo) * itstab) * exp ((hi - lo) * itstab)).
  { rewrite <- exp_plus. apply MON. nra. }
  assert (U := wvar_ratio bins beta0 best lo hi P NE MB).
  assert (U' := wvar_ratio bins best beta0 lo hi P NE MB). rewrite (Rabs_minus_sym best beta0) in U.
  assert (e := exp_pos ((hi - lo) * itstab)).
  set (q := exp ((hi - lo) * itstab)) in *.
  assert (Q1 : wvar bins best / wvar bins beta0 <= q * q).
  { apply (Rmult_le_reg_r (wvar bins beta0)); auto. unfold Rdiv. rewrite Rmult_assoc, Rinv_l by lra.
    rewrite Rmult_1_r. eapply Rle_trans; [exact U|]. apply Rmult_le_compat_r; lra. }
  assert (Q2 : / q * / q <= wvar bins best / wvar bins beta0).
  { apply (Rmult_le_reg_r (wvar bins beta0)); auto. unfold Rdiv. rewrite (Rmult_assoc (wvar bins best)), Rinv_l by lra.
    rewrite Rmult_1_r. apply (Rmult_le_reg_l (q * q)). nra.
    replace (q * q * (/ q * / q * wvar bins beta0)) with (wvar bins beta0) by (field; lra).
    eapply Rle_trans; [exact U'|]. apply Rmult_le_compat_r; lra. }
  rewrite exp_Ropp. fold q.
  assert (0 < / q) by (apply Rinv_0_lt_compat; auto).
  split.
  - rewrite <- (sqrt_square (/ q)) by lra. apply sqrt_le_1_alt. exact Q2.
  - rewrite <- (sqrt_square q) by lra. apply sqrt_le_1_alt. exact Q1.
Qed.

(** ** Non-increasing weights on an equally spaced grid are skewed to the right *)

(** Sum of w_i g(j + i). *)
Fixpoint isum (g : nat -> R) (w : list R) (j : nat) : R :=
  match w with [] => 0 | x :: w' => x * g j + isum g w' (S j) end.
(** Sum of (w_i - w_{i+1}) h(j + i + 1). *)
Fixpoint layers (h : nat -> R) (w : list R) (j : nat) : R :=
  match w with [] => 0 | x :: w' => (x - hd 0 w') * h (S j) + layers h w' (S j) end.
Fixpoint nonincreasing (w : list R) : Prop :=
  match w with [] => True | x :: w' => hd 0 w' <= x /\ nonincreasing w' end.

Lemma abel : forall g h w j, (forall n, h (S n) = h n + g n) ->
  isum g w j = layers h w j - hd 0 w * h j.
Proof.
  intros g h w. induction w; intros j H; cbn [isum layers hd]; [lra|].
  rewrite (IHw (S j) H), (H j). ring.
Qed.

Lemma layers_nonneg : forall h w j, nonincreasing w -> (forall n, (j < n)%nat -> 0 <= h n) -> 0 <= layers h w j.
Proof.
  intros h w. induction w; intros j Hw H; cbn [layers]; [lra|]. destruct Hw as [A B].
  assert (0 <= h (S j)) by (apply H; lia).
  assert (0 <= layers h w (S j)) by (apply IHw; auto; intros n Hn; apply H; lia).
  assert (0 <= (a - hd 0 w) * h (S j)) by (apply Rmult_le_pos; lra). lra.
Qed.

Lemma layers_lin : forall (f g k : nat -> R) x y z w j,
  layers (fun n => x * f n + y * g n + z * k n) w j = x * layers f w j + y * layers g w j + z * layers k w j.
Proof. induction w; intros j; cbn [layers]; [lra|]. rewrite IHw. ring. Qed.

Lemma layers_ext : forall f g w j, (forall n, f n = g n) -> layers f w j = layers g w j.
Proof. induction w; intros j H; cbn [layers]; auto. rewrite H, IHw; auto. Qed.

Definition I_ (r : nat) (w : list R) : R := isum (fun n => INR n ^ r) w 0.

Lemma skew_nonneg : forall w, nonincreasing w ->
  0 <= I_ 3 w * (I_ 0 w * I_ 0 w) - 3 * (I_ 1 w * I_ 2 w * I_ 0 w) + 2 * (I_ 1 w * I_ 1 w * I_ 1 w).
Proof.
  intros w Hw.
  set (a0 := layers (fun n => INR n) w 0).
  set (a1 := layers (fun n => INR n * (INR n - 1)) w 0).
  set (a2 := layers (fun n => INR n * ((INR n - 1) * (INR n - 1))) w 0).
  set (a3 := layers (fun n => INR n * ((INR n - 1) * (INR n - 1) * (INR n - 1))) w 0).
  assert (E0 : I_ 0 w = a0).
  { unfold I_, a0. rewrite (abel _ (fun n => INR n)). simpl INR. ring.
    intros n. rewrite S_INR. simpl. ring. }
  assert (E1 : I_ 1 w = a1 / 2).
  { unfold I_, a1. rewrite (abel _ (fun n => 1 / 2 * (INR n * (INR n - 1)) + 0 * INR n + 0 * INR n)).
    rewrite layers_lin. simpl (INR 0). field.
    intros n. rewrite S_INR. simpl. field. }
  assert (E2 : I_ 2 w = (2 * a2 + a1) / 6).
  { unfold I_, a2, a1.
    rewrite (abel _ (fun n => 1 / 3 * (INR n * ((INR n - 1) * (INR n - 1))) + 1 / 6 * (INR n * (INR n - 1)) + 0 * INR n)).
    rewrite (layers_lin (fun n => INR n * ((INR n - 1) * (INR n - 1))) (fun n => INR n * (INR n - 1)) (fun n => INR n)).
    simpl (INR 0). field.
    intros n. rewrite S_INR. simpl. field. }
  assert (E3 : I_ 3 w = (a3 + a2) / 4).
  { unfold I_, a2, a3.
    rewrite (abel _ (fun n => 1 / 4 * (INR n * ((INR n - 1) * (INR n - 1) * (INR n - 1))) + 1 / 4 * (INR n * ((INR n - 1) * (INR n - 1))) + 0 * INR n)).
    rewrite (layers_lin (fun n => INR n * ((INR n - 1) * (INR n - 1) * (INR n - 1))) (fun n => INR n * ((INR n - 1) * (INR n - 1))) (fun n => INR n)).
    simpl (INR 0). field.
    intros n. rewrite S_INR. simpl. field. }
  assert (K : forall n, (0 < n)%nat -> 0 <= INR n - 1 /\ 0 <= INR n).
  { intros n Hn. assert (X : INR 1 <= INR n) by (apply le_INR; lia). simpl in X. lra. }
  assert (A0 : 0 <= a0) by (apply layers_nonneg; auto; intros n Hn; apply K; auto).
  assert (A1 : 0 <= a1).
  { apply layers_nonneg; auto. intros n Hn. destruct (K n Hn). apply Rmult_le_pos; auto. }
  assert (A2 : 0 <= a2).
  { apply layers_nonneg; auto. intros n Hn. destruct (K n Hn). repeat apply Rmult_le_pos; auto. }
  assert (A3 : 0 <= a3).
  { apply layers_nonneg; auto. intros n Hn. destruct (K n Hn). repeat apply Rmult_le_pos; auto. }
  assert (Q1 : forall x y, 0 <= x * x * a3 + 2 * x * y * a2 + y * y * a1).
  { intros x y. unfold a1, a2, a3. rewrite <- layers_lin. apply layers_nonneg; auto.
    intros n Hn. destruct (K n Hn) as [K1 K2].
    match goal with |- 0 <= ?e => replace e with (INR n * (INR n - 1) * ((x * (INR n - 1) + y) * (x * (INR n - 1) + y))) by ring end.
    apply Rmult_le_pos; [apply Rmult_le_pos; auto|apply Rle_0_sqr]. }
  assert (Q0 : forall x y, 0 <= x * x * a2 + 2 * x * y * a1 + y * y * a0).
  { intros x y. unfold a1, a2, a0. rewrite <- layers_lin. apply layers_nonneg; auto.
    intros n Hn. destruct (K n Hn) as [K1 K2].
    match goal with |- 0 <= ?e => replace e with (INR n * ((x * (INR n - 1) + y) * (x * (INR n - 1) + y))) by ring end.
    apply Rmult_le_pos; [auto|apply Rle_0_sqr]. }
  rewrite E0, E1, E2, E3. clearbody a0 a1 a2 a3. clear E0 E1 E2 E3 K.
  replace ((a3 + a2) / 4 * (a0 * a0) - 3 * (a1 / 2 * ((2 * a2 + a1) / 6) * a0) + 2 * (a1 / 2 * (a1 / 2) * (a1 / 2)))
    with ((a3 * (a0 * a0) + a2 * (a0 * a0) - 2 * (a2 * a1 * a0) - a1 * a1 * a0 + a1 * a1 * a1) / 4) by field.
  apply Rmult_le_pos; [|lra].
  destruct (Req_dec a1 0) as [Z|Z].
  - rewrite Z. assert (0 <= a3 * (a0 * a0)) by (repeat apply Rmult_le_pos; auto).
    assert (0 <= a2 * (a0 * a0)) by (repeat apply Rmult_le_pos; auto). nra.
  - assert (A1' : 0 < a1) by lra.
    assert (C1 : a2 * a2 <= a3 * a1).
    { assert (X := Q1 a1 (- a2)). apply (Rmult_le_reg_l a1); auto. nra. }
    destruct (Req_dec a0 0) as [Z0|Z0].
    { rewrite Z0. assert (0 <= a1 * a1 * a1) by (repeat apply Rmult_le_pos; auto). nra. }
    assert (C0 : a1 * a1 <= a2 * a0).
    { assert (X := Q0 a0 (- a1)). apply (Rmult_le_reg_l a0); [lra|]. nra. }
    apply (Rmult_le_reg_l a1); auto. rewrite Rmult_0_r.
    assert (X : a2 * a2 * (a0 * a0) <= a3 * a1 * (a0 * a0)).
    { apply Rmult_le_compat_r; auto. apply Rmult_le_pos; auto. }
    assert (Y : 0 <= a1 * a0 * (a2 * a0 - a1 * a1)).
    { apply Rmult_le_pos; [apply Rmult_le_pos; auto|lra]. }
    assert (S2 : 0 <= (a2 * a0 - a1 * a1) * (a2 * a0 - a1 * a1)) by apply Rle_0_sqr.
    nra.
Qed.

(** ** The curvature decreases where the weights do not increase *)

Fixpoint gridded (m0 d : R) (l : list R) (j : nat) : Prop :=
  match l with [] => True | m :: l' => m = m0 + INR j * d /\ gridded m0 d l' (S j) end.
Definition weights (bins : list (R * R)) (beta : R) : list R :=
  map (fun p => fst p * exp (- beta * snd p)) bins.

Lemma wmom_isum : forall r bins beta m0 d j, gridded m0 d (map snd bins) j ->
  wmom r bins beta = isum (fun n => (m0 + INR n * d) ^ r) (weights bins beta) j.
Proof.
  intros r bins beta m0 d. unfold wmom, weights.
  induction bins as [|p l IH]; intros j H; cbn [map Rsum isum]; [auto|].
  cbn [map gridded] in H. destruct H as [E H]. rewrite (IH (S j) H), <- E. ring.
Qed.

Lemma isum_lin : forall (f0 f1 f2 f3 : nat -> R) x0 x1 x2 x3 w j,
  isum (fun n => x0 * f0 n + x1 * f1 n + x2 * f2 n + x3 * f3 n) w j
  = x0 * isum f0 w j + x1 * isum f1 w j + x2 * isum f2 w j + x3 * isum f3 w j.
Proof. induction w; intros j; cbn [isum]; [lra|]. rewrite IHw. ring. Qed.

Lemma isum_ext : forall f g w j, (forall n, f n = g n) -> isum f w j = isum g w j.
Proof. induction w; intros j H; cbn [isum]; auto. rewrite H, IHw; auto. Qed.

Lemma wskew_nonneg : forall bins beta m0 d, gridded m0 d (map snd bins) 0 -> 0 <= d ->
  nonincreasing (weights bins beta) ->
  0 <= wmom 3 bins beta * (wmom 0 bins beta * wmom 0 bins beta)
       - 3 * (wmom 1 bins beta * wmom 2 bins beta * wmom 0 bins beta)
       + 2 * (wmom 1 bins beta * wmom 1 bins beta * wmom 1 bins beta).
Proof.
  intros bins beta m0 d G D H. assert (K := skew_nonneg _ H).
  set (w := weights bins beta) in *.
  assert (EX : forall x0 x1 x2 x3, isum (fun n => x0 * INR n ^ 0 + x1 * INR n ^ 1 + x2 * INR n ^ 2 + x3 * INR n ^ 3) w 0
    = x0 * I_ 0 w + x1 * I_ 1 w + x2 * I_ 2 w + x3 * I_ 3 w).
  { intros. unfold I_. apply (isum_lin (fun n => INR n ^ 0) (fun n => INR n ^ 1) (fun n => INR n ^ 2) (fun n => INR n ^ 3)). }
  rewrite !(wmom_isum _ bins beta m0 d 0 G). fold w.
  rewrite (isum_ext (fun n => (m0 + INR n * d) ^ 0) (fun n => 1 * INR n ^ 0 + 0 * INR n ^ 1 + 0 * INR n ^ 2 + 0 * INR n ^ 3)) by (intros; simpl; ring).
  rewrite (isum_ext (fun n => (m0 + INR n * d) ^ 1) (fun n => m0 * INR n ^ 0 + d * INR n ^ 1 + 0 * INR n ^ 2 + 0 * INR n ^ 3)) by (intros; simpl; ring).
  rewrite (isum_ext (fun n => (m0 + INR n * d) ^ 2) (fun n => (m0 * m0) * INR n ^ 0 + (2 * m0 * d) * INR n ^ 1 + (d * d) * INR n ^ 2 + 0 * INR n ^ 3)) by (intros; simpl; ring).
  rewrite (isum_ext (fun n => (m0 + INR n * d) ^ 3) (fun n => (m0 * m0 * m0) * INR n ^ 0 + (3 * m0 * m0 * d) * INR n ^ 1 + (3 * m0 * d * d) * INR n ^ 2 + (d * d * d) * INR n ^ 3)) by (intros; simpl; ring).
  rewrite !EX.
  match goal with |- 0 <= ?e => replace e with
    ((d * d * d) * (I_ 3 w * (I_ 0 w * I_ 0 w) - 3 * (I_ 1 w * I_ 2 w * I_ 0 w) + 2 * (I_ 1 w * I_ 1 w * I_ 1 w))) by ring end.
  apply Rmult_le_pos; auto. repeat apply Rmult_le_pos; auto.
Qed.

Lemma wvar_deriv : forall bins beta, durations_positive bins -> bins <> [] ->
  derivable_pt_lim (wvar bins) beta
    (- ((wmom 3 bins beta * (wmom 0 bins beta * wmom 0 bins beta)
         - 3 * (wmom 1 bins beta * wmom 2 bins beta * wmom 0 bins beta)
         + 2 * (wmom 1 bins beta * wmom 1 bins beta * wmom 1 bins beta))
        / (wmom 0 bins beta * wmom 0 bins beta * wmom 0 bins beta))).
Proof.
  intros bins beta P NE. assert (W := wmom0_pos bins beta P NE).
  set (D2 := (- wmom 3 bins beta * wmom 0 bins beta - - wmom 1 bins beta * wmom 2 bins beta) / Rsqr (wmom 0 bins beta)).
  match goal with |- derivable_pt_lim _ _ ?e => replace e with
    (D2 - (- wvar bins beta * wmu bins beta + wmu bins beta * (- wvar bins beta))) end.
  - unfold wvar at 1. apply derivable_pt_lim_minus.
    + apply (derivable_pt_lim_div (wmom 2 bins) (wmom 0 bins)); try apply wmom_deriv. lra.
    + apply (derivable_pt_lim_mult (wmu bins) (wmu bins)); apply wmu_deriv; auto.
  - unfold D2, wvar, wmu, Rsqr. field. lra.
Qed.

Lemma hd_weights : forall p bins beta, hd 0 (weights (p :: bins) beta) = fst p * exp (- beta * snd p).
Proof. reflexivity. Qed.

Lemma weights_mono : forall bins m0 d j b c, durations_positive bins -> gridded m0 d (map snd bins) j -> 0 <= d ->
  b <= c -> nonincreasing (weights bins b) -> nonincreasing (weights bins c).
Proof.
  induction bins as [|p l IH]; intros m0 d j b c P G D H N; auto.
  cbn [map gridded] in G. destruct G as [E G]. cbn [weights map nonincreasing] in N. destruct N as [N1 N2].
  cbn [weights map nonincreasing]. split.
  - destruct l as [|q l]; cbn [hd map] in *.
    + assert (X := P p (or_introl eq_refl)). assert (e := exp_pos (- c * snd p)).
      apply Rmult_le_pos; lra.
    + cbn [gridded map] in G. destruct G as [E2 _].
      assert (Q : snd p <= snd q). { rewrite E, E2, S_INR. nra. }
      assert (SP : forall z, exp (- c * z) = exp (- b * z) * exp (- (c - b) * z)).
      { intros z. rewrite <- exp_plus. f_equal. ring. }
      rewrite !SP.
      assert (X := P p (or_introl eq_refl)). assert (e := exp_pos (- b * snd p)).
      assert (e1 := exp_pos (- (c - b) * snd p)). assert (e2 := exp_pos (- (c - b) * snd q)).
      assert (e3 : exp (- (c - b) * snd q) <= exp (- (c - b) * snd p)).
      { assert (Z : - (c - b) * snd q <= - (c - b) * snd p) by nra.
        destruct Z as [Z|Z]; [left; apply exp_increasing; auto|rewrite Z; lra]. }
      rewrite <- !Rmult_assoc. apply Rle_trans with (fst p * exp (- b * snd p) * exp (- (c - b) * snd q)).
      * apply Rmult_le_compat_r; lra.
      * apply Rmult_le_compat_l; auto. apply Rmult_le_pos; lra.
  - apply (IH m0 d (S j) b c); auto. intros z Iz. apply P. simpl; auto.
Qed.

Lemma wvar_decreasing : forall bins m0 d b c, durations_positive bins -> bins <> [] ->
  gridded m0 d (map snd bins) 0 -> 0 <= d -> nonincreasing (weights bins b) -> b <= c ->
  wvar bins c <= wvar bins b.
Proof.
  intros bins m0 d b c P NE G D N [H|H]; [|rewrite H; lra].
  destruct (MVT_cor2 (wvar bins) _ b c H (fun z _ => wvar_deriv bins z P NE)) as (z & E & Z1 & Z2).
  assert (K := wskew_nonneg bins z m0 d G D (weights_mono bins m0 d 0 b z P G D ltac:(lra) N)).
  assert (W := wmom0_pos bins z P NE).
  match type of E with _ = - (?k / ?w) * _ => assert (0 <= k / w) end.
  { apply Rmult_le_pos; auto. left. apply Rinv_0_lt_compat. repeat apply Rmult_lt_0_compat; auto. }
  nra.
Qed.

(** ** Convergence *)

(** One step from the left of the estimate. *)
Lemma step_left : forall bins N S m0 d blow b best, durations_positive bins ->
  (exists p q, In p bins /\ In q bins /\ snd p <> snd q) -> 0 < N ->
  gridded m0 d (map snd bins) 0 -> 0 <= d -> nonincreasing (weights bins blow) ->
  dL bins N S best = 0 -> blow <= b <= best ->
  b <= newton bins N S b <= best /\
  best - newton bins N S b <= (best - b) * (1 - wvar bins best / wvar bins blow).
Proof.
  intros bins N S m0 d blow b best P TD HN G D NI HB [B1 B2].
  assert (NE := bins_ne bins TD).
  assert (V := fun z => wvar_pos bins z P TD).
  destruct B2 as [B2|B2].
  - destruct (dL_mvt bins N S b best P NE B2) as (c & E & C1 & C2).
    assert (NIb := weights_mono bins m0 d 0 blow b P G D B1 NI).
    assert (NIc := weights_mono bins m0 d 0 blow c P G D ltac:(lra) NI).
    assert (K1 := wvar_decreasing bins m0 d b c P NE G D NIb ltac:(lra)).
    assert (K2 := wvar_decreasing bins m0 d c best P NE G D NIc ltac:(lra)).
    assert (K3 := wvar_decreasing bins m0 d blow b P NE G D NI B1).
    assert (Vb := V b). assert (Vc := V c). assert (Vs := V best). assert (Vl := V blow).
    assert (EQ : newton bins N S b = b + (best - b) * (wvar bins c / wvar bins b)).
    { unfold newton. rewrite HB in E. unfold d2L in *.
      replace (dL bins N S b) with (N * wvar bins c * (best - b)) by lra. field. split; lra. }
    assert (Q1 : wvar bins c / wvar bins b <= 1).
    { apply (Rmult_le_reg_r (wvar bins b)); auto. unfold Rdiv. rewrite Rmult_assoc, Rinv_l by lra. lra. }
    assert (Q2 : wvar bins best / wvar bins blow <= wvar bins c / wvar bins b).
    { apply Rle_trans with (wvar bins c / wvar bins blow).
      - unfold Rdiv. apply Rmult_le_compat_r; auto. left. apply Rinv_0_lt_compat; auto.
      - unfold Rdiv. apply Rmult_le_compat_l; [lra|]. apply Rinv_le_contravar; auto. }
    assert (Q3 : 0 < wvar bins best / wvar bins blow) by (apply Rdiv_lt_0_compat; auto).
    rewrite EQ. set (r := wvar bins c / wvar bins b) in *. set (s := wvar bins best / wvar bins blow) in *.
    split; [split|]; nra.
  - rewrite B2. unfold newton. rewrite HB.
    replace (best - 0 / d2L bins N best) with best.
    + split; [lra|]. replace (best - best) with 0 by ring. lra.
    + field. assert (Q := d2L_neg bins N P TD HN best). lra.
Qed.

(** One step from the right ends on the left. *)
Lemma step_right : forall bins N S m0 d blow b best, durations_positive bins ->
  (exists p q, In p bins /\ In q bins /\ snd p <> snd q) -> 0 < N ->
  gridded m0 d (map snd bins) 0 -> 0 <= d -> nonincreasing (weights bins blow) ->
  dL bins N S best = 0 -> blow <= best -> best < b -> newton bins N S b <= best.
Proof.
  intros bins N S m0 d blow b best P TD HN G D NI HB B1 B2.
  assert (NE := bins_ne bins TD).
  assert (V := fun z => wvar_pos bins z P TD).
  destruct (dL_mvt bins N S best b P NE B2) as (c & E & C1 & C2).
  assert (NIc := weights_mono bins m0 d 0 blow c P G D ltac:(lra) NI).
  assert (K1 := wvar_decreasing bins m0 d c b P NE G D NIc ltac:(lra)).
  assert (Vb := V b). assert (Vc := V c).
  assert (EQ : newton bins N S b = b - (b - best) * (wvar bins c / wvar bins b)).
  { unfold newton. rewrite HB in E. unfold d2L in *.
    replace (dL bins N S b) with (- N * wvar bins c * (b - best)) by lra. field. split; lra. }
  assert (Q1 : 1 <= wvar bins c / wvar bins b).
  { apply (Rmult_le_reg_r (wvar bins b)); auto. unfold Rdiv. rewrite Rmult_assoc, Rinv_l by lra. lra. }
  rewrite EQ. nra.
Qed.

Lemma loop_left : forall n (tper fmag nobs : list R) m m0 d blow mrate itstab best b,
  length tper = length fmag -> durations_positive (combine tper fmag) ->
  (exists p q, In p (combine tper fmag) /\ In q (combine tper fmag) /\ snd p <> snd q) ->
  0 < Rsum nobs -> gridded m0 d (map snd (combine tper fmag)) 0 -> 0 <= d ->
  nonincreasing (weights (combine tper fmag) blow) ->
  dL (combine tper fmag) (Rsum nobs) (Rsum (map2 Rmult nobs fmag)) best = 0 -> blow <= b <= best ->
  (best - b) * (1 - wvar (combine tper fmag) best / wvar (combine tper fmag) blow) ^ n <= itstab ->
  exists r, @weichert_loop ROps (S n) tper fmag nobs m mrate b itstab = Ok r.
Proof.
  induction n; intros tper fmag nobs m m0 d blow mrate itstab best b L P TD HN G D NI HB B HT;
  assert (NE := bins_ne _ TD);
  destruct (step_left _ (Rsum nobs) (Rsum (map2 Rmult nobs fmag)) m0 d blow b best P TD HN G D NI HB B) as [S1 S2].
  - rewrite loop_eval by auto. cbv zeta.
    match goal with |- context [Rleb ?x ?y] => assert (X : Rleb x y = true) end.
    { apply Rleb_true. rewrite Rabs_right by lra. simpl pow in HT. lra. }
    rewrite X. eauto.
  - rewrite loop_eval by auto. cbv zeta.
    destruct (Rleb _ itstab) eqn:X; [eauto|].
    apply (IHn tper fmag nobs m m0 d blow mrate itstab best); auto; [lra|].
    eapply Rle_trans; [|exact HT]. cbn [pow].
    rewrite <- Rmult_assoc. apply Rmult_le_compat_r; [|exact S2].
    apply pow_le.
    assert (V1 := wvar_pos (combine tper fmag) best P TD). assert (V2 := wvar_pos (combine tper fmag) blow P TD).
    assert (K := wvar_decreasing (combine tper fmag) m0 d blow best P NE G D NI ltac:(lra)).
    assert (wvar (combine tper fmag) best / wvar (combine tper fmag) blow <= 1).
    { apply (Rmult_le_reg_r (wvar (combine tper fmag) blow)); auto. unfold Rdiv. rewrite Rmult_assoc, Rinv_l by lra. lra. }
    lra.
Qed.

Lemma gridded_of : forall m0 d l j, (forall i m, nth_error l i = Some m -> m = m0 + INR (j + i) * d) ->
  gridded m0 d l j.
Proof.
  induction l; intros j H; cbn [gridded]; auto. split.
  - rewrite (H 0%nat a eq_refl), Nat.add_0_r. auto.
  - apply IHl. intros i m Hm. rewrite (H (S i) m Hm). f_equal. f_equal. f_equal. lia.
Qed.

Lemma map_snd_combine : forall A B (l : list A) (m : list B), length l = length m ->
  map snd (combine l m) = m.
Proof. induction l; destruct m; simpl; intros; try discriminate; auto. f_equal. auto. Qed.

Lemma weights_of : forall tper fmag m0 d j b, length tper = length fmag ->
  (forall t, In t tper -> 0 < t) -> gridded m0 d fmag j ->
  (forall i t t', nth_error tper i = Some t -> nth_error tper (S i) = Some t' -> t' <= t * exp (b * d)) ->
  nonincreasing (weights (combine tper fmag) b).
Proof.
  induction tper as [|t tper IH]; intros [|f fmag] m0 d j b L P G H; cbn [combine weights map nonincreasing]; auto.
  cbn [gridded] in G. destruct G as [E G]. split.
  - assert (X := P t (or_introl eq_refl)). assert (e := exp_pos (- b * f)).
    destruct tper as [|t' tper], fmag as [|f' fmag]; cbn [combine map hd fst snd]; try (apply Rmult_le_pos; lra).
    assert (Y := H 0%nat t t' eq_refl eq_refl).
    cbn [gridded] in G. destruct G as [E' _].
    replace (- b * f') with (- b * f + - (b * d)) by (rewrite E, E', S_INR; ring).
    rewrite exp_plus, exp_Ropp. assert (ed := exp_pos (b * d)).
    replace (t * exp (- b * f)) with (t * exp (b * d) * (exp (- b * f) * / exp (b * d))) by (field; lra).
    apply Rmult_le_compat_r; auto. apply Rmult_le_pos; [lra|]. left. apply Rinv_0_lt_compat; auto.
  - apply (IH fmag m0 d (S j)); auto. intros z Iz. apply P. simpl; auto.
    intros i x x' Hx Hx'. apply (H (S i)); auto.
Qed.

Lemma C42_grid_proof : forall (tper fmag nobs : list R) m0 d blow,
  length tper = length fmag -> length nobs = length fmag -> (forall t, In t tper -> 0 < t) ->
  (forall n, In n nobs -> 0 <= n) -> 0 < d ->
  (forall i m, nth_error fmag i = Some m -> m = m0 + INR i * d) ->
  (forall i t t', nth_error tper i = Some t -> nth_error tper (S i) = Some t' -> t' <= t * exp (blow * d)) ->
  (exists n m m', In (n, m) (combine nobs fmag) /\ 0 < n /\ In m' fmag /\ m' < m) ->
  (exists n m m', In (n, m) (combine nobs fmag) /\ 0 < n /\ In m' fmag /\ m < m') ->
  let L := weichert_loglik (combine tper fmag) (Rsum nobs) (Rsum (map2 Rmult nobs fmag)) in
  exists best (L' L'' : R -> R),
    (forall x, x <> best -> L x < L best) /\
    (forall x, derivable_pt_lim L x (L' x)) /\ (forall x, derivable_pt_lim L' x (L'' x)) /\
    forall beta itstab mrate, 0 < itstab -> blow <= best -> blow <= beta ->
      beta <= best \/ blow <= beta - L' beta / L'' beta ->
      exists fuel r, @weichert ROps fuel tper fmag nobs mrate beta itstab = Ok r.
Proof.
  intros tper fmag nobs m0 d blow L1 L2 TP NP HD GR SL A B L.
  assert (G := gridded_of m0 d fmag 0 GR).
  set (bins := combine tper fmag) in *.
  assert (GB : gridded m0 d (map snd bins) 0) by (unfold bins; rewrite map_snd_combine; auto).
  assert (P : durations_positive bins).
  { intros [t m] I. apply in_combine_l in I. simpl. auto. }
  assert (NI : nonincreasing (weights bins blow)) by (apply (weights_of tper fmag m0 d 0); auto).
  (* lowest and highest magnitude *)
  assert (LOW : forall m, In m fmag -> m0 <= m).
  { intros m I. apply In_nth_error in I. destruct I as [i Hi]. rewrite (GR i m Hi).
    assert (X := pos_INR i). nra. }
  assert (FS : exists f0 f1 rest, fmag = f0 :: f1 :: rest).
  { destruct A as (n & m & m' & I & _ & I' & LT). apply in_combine_r in I.
    destruct fmag as [|f0 [|f1 rest]]; [destruct I| |eauto].
    destruct I as [->|[]]. destruct I' as [->|[]]. lra. }
  destruct FS as (f0 & f1 & rest & EF).
  assert (E0 : f0 = m0). { rewrite (GR 0%nat f0). simpl. ring. rewrite EF. auto. }
  assert (E1 : f1 = m0 + d). { rewrite (GR 1%nat f1). simpl. ring. rewrite EF. auto. }
  assert (TD : exists p q, In p bins /\ In q bins /\ snd p <> snd q).
  { apply (two_bins_distinct tper fmag f0 f1 rest); auto. lra. }
  assert (NE := bins_ne bins TD).
  set (hi := m0 + INR (length fmag - 1) * d).
  assert (HIGH : forall m, In m fmag -> m <= hi).
  { intros m I. apply In_nth_error in I. destruct I as [i Hi]. rewrite (GR i m Hi). unfold hi.
    assert (X : (i < length fmag)%nat) by (apply nth_error_Some; congruence).
    assert (Y : INR i <= INR (length fmag - 1)) by (apply le_INR; lia). nra. }
  assert (IHI : In hi fmag).
  { assert (X : exists m, nth_error fmag (length fmag - 1) = Some m).
    { destruct (nth_error fmag (length fmag - 1)) eqn:X; [eauto|]. apply nth_error_None in X.
      rewrite EF in X. simpl in X. lia. }
    destruct X as [m X]. rewrite (GR _ m X) in X. apply nth_error_In in X. exact X. }
  assert (ILO : In m0 fmag) by (rewrite EF, E0; simpl; auto).
  assert (MW : forall m, In m fmag -> m0 <= m <= hi) by auto.
  assert (A' : exists n m, In (n, m) (combine nobs fmag) /\ 0 < n /\ m0 < m).
  { destruct A as (n & m & m' & I & Hn & I' & LT). exists n, m. repeat split; auto. specialize (LOW m' I'). lra. }
  assert (B' : exists n m, In (n, m) (combine nobs fmag) /\ 0 < n /\ m < hi).
  { destruct B as (n & m & m' & I & Hn & I' & LT). exists n, m. repeat split; auto. specialize (HIGH m' I'). lra. }
  assert (BT := weighted_between_strict nobs fmag m0 hi L2 NP MW A' B').
  assert (NNEG : 0 <= Rsum nobs) by (apply Rsum_nonneg; auto).
  assert (LH : m0 < hi).
  { destruct A' as (n & m & I & Hn & Hm). apply in_combine_r in I. assert (X := MW m I). lra. }
  assert (HN : 0 < Rsum nobs) by nra.
  destruct (in_combine_exists tper fmag m0 L1 ILO) as [t0 I0].
  destruct (in_combine_exists tper fmag hi L1 IHI) as [t1 I1]. fold bins in I0, I1.
  assert (MB : mags_within m0 hi bins).
  { intros [t m] I. apply in_combine_r in I. simpl. auto. }
  destruct (estimate_exists bins (Rsum nobs) (Rsum (map2 Rmult nobs fmag)) P TD HN m0 hi t0 t1 I0 I1 MB BT) as [best HB].
  exists best, (dL bins (Rsum nobs) (Rsum (map2 Rmult nobs fmag))), (d2L bins (Rsum nobs)).
  split. { apply estimate_max; auto. }
  split. { intros x. apply dL_deriv; auto. }
  split. { intros x. apply d2L_deriv; auto. }
  intros beta itstab mrate HT HBL HBe CASE.
  fold (newton bins (Rsum nobs) (Rsum (map2 Rmult nobs fmag)) beta) in CASE.
  set (q := 1 - wvar bins best / wvar bins blow).
  assert (V1 := wvar_pos bins best P TD). assert (V2 := wvar_pos bins blow P TD).
  assert (K := wvar_decreasing bins m0 d blow best P NE GB ltac:(lra) NI HBL).
  assert (Q0 : 0 <= q < 1).
  { unfold q. assert (0 < wvar bins best / wvar bins blow) by (apply Rdiv_lt_0_compat; auto).
    assert (wvar bins best / wvar bins blow <= 1).
    { apply (Rmult_le_reg_r (wvar bins blow)); auto. unfold Rdiv. rewrite Rmult_assoc, Rinv_l by lra. lra. }
    lra. }
  assert (LEFT : forall b, blow <= b <= best -> forall m, exists n r,
    @weichert_loop ROps (S n) tper fmag nobs m mrate b itstab = Ok r).
  { intros b Hb m.
    assert (Y : 0 < itstab / (best - b + 1)) by (apply Rdiv_lt_0_compat; lra).
    destruct (pow_lt_1_zero q ltac:(rewrite Rabs_right; lra) _ Y) as [n Hn]. specialize (Hn n ltac:(lia)).
    rewrite Rabs_right in Hn by (apply Rle_ge, pow_le; lra).
    exists n. apply (loop_left n tper fmag nobs m m0 d blow mrate itstab best b); auto; [lra|].
    fold bins. fold q.
    apply Rle_trans with ((best - b + 1) * q ^ n).
    - apply Rmult_le_compat_r; [apply pow_le|]; lra.
    - left. apply Rlt_le_trans with ((best - b + 1) * (itstab / (best - b + 1))).
      + apply Rmult_lt_compat_l; lra.
      + right. field. lra. }
  destruct (Rle_dec beta best) as [H|H].
  - destruct (LEFT beta ltac:(lra) (f0 - (f1 - f0) / 2)) as (n & r & E).
    exists (S n), r. unfold weichert. rewrite EF. rewrite <- EF. rops. exact E.
  - assert (H1 : blow <= newton bins (Rsum nobs) (Rsum (map2 Rmult nobs fmag)) beta) by (destruct CASE; lra).
    assert (H2 : newton bins (Rsum nobs) (Rsum (map2 Rmult nobs fmag)) beta <= best).
    { apply (step_right bins _ _ m0 d blow); auto; lra. }
    destruct (LEFT _ (conj H1 H2) (f0 - (f1 - f0) / 2)) as (n & r & E).
    exists (S (S n)).
    assert (X := loop_eval (S n) tper fmag nobs (f0 - (f1 - f0) / 2) mrate beta itstab L1 P NE). cbv zeta in X.
    fold bins in X. rewrite E in X.
    unfold weichert. rewrite EF. rewrite <- EF. rops.
    destruct (Rleb _ itstab) in X; eexists; exact X.
Qed.

(** ** A start from which the iteration diverges although both bins have an event *)

Lemma two_bin_newton : forall b,
  newton [(1, 5); (1, 7)] 2 12 b = b + (exp (- (2 * b)) - exp (2 * b)) / 4.
Proof.
  intros b. unfold newton, dL, d2L, wvar, wmu, wmom. cbn [map Rsum fst snd pow].
  replace (- b * 7) with (- b * 5 + - (2 * b)) by ring. rewrite exp_plus.
  assert (e1 := exp_pos (- b * 5)). assert (e2 := exp_pos (- (2 * b))). assert (e3 := exp_pos (2 * b)).
  assert (E : exp (2 * b) = / exp (- (2 * b))) by (rewrite exp_Ropp, Rinv_inv; auto).
  rewrite E. set (x := exp (- b * 5)) in *. set (y := exp (- (2 * b))) in *.
  match goal with |- _ = ?r => set (rhs := r) end.
  replace (1 * (5 * 1) * x + (1 * (7 * 1) * (x * y) + 0)) with (x * (5 + 7 * y)) by ring.
  replace (1 * 1 * x + (1 * 1 * (x * y) + 0)) with (x * (1 + y)) by ring.
  replace (1 * (5 * (5 * 1)) * x + (1 * (7 * (7 * 1)) * (x * y) + 0)) with (x * (25 + 49 * y)) by ring.
  replace (x * (25 + 49 * y) / (x * (1 + y)) - x * (5 + 7 * y) / (x * (1 + y)) * (x * (5 + 7 * y) / (x * (1 + y))))
    with (4 * y / ((1 + y) * (1 + y))) by (field; lra).
  unfold rhs. field. repeat split; lra.
Qed.

Lemma exp_ge_4x : forall x, 3 <= x -> 4 * x + 1 <= exp x.
Proof.
  intros x H.
  assert (X := exp_ineq1_le (1 / 8)).
  assert (E3 : 16 <= exp 3).
  { replace 3 with (INR 24 * (1 / 8)) by (simpl; lra). rewrite <- (exp_pow (1/8) 24) || idtac.
    assert (G : forall n, exp (INR n * (1 / 8)) = exp (1 / 8) ^ n).
    { induction n; [simpl; rewrite Rmult_0_l, exp_0; auto|]. rewrite S_INR, Rmult_plus_distr_r, exp_plus, IHn. cbn [pow].
      rewrite Rmult_1_l. ring. }
    rewrite G. apply Rle_trans with ((9 / 8) ^ 24); [lra|]. apply pow_incr. lra. }
  replace x with ((x - 3) + 3) by ring. rewrite exp_plus.
  assert (Y := exp_ineq1_le (x - 3)). assert (0 < exp 3) by lra.
  apply Rle_trans with ((1 + (x - 3)) * 16); [lra|].
  apply Rmult_le_compat; lra.
Qed.

Lemma two_bin_far : forall b, 3 / 2 <= Rabs b ->
  3 / 2 <= Rabs (newton [(1, 5); (1, 7)] 2 12 b) /\ 3 <= Rabs (newton [(1, 5); (1, 7)] 2 12 b - b).
Proof.
  intros b H. rewrite two_bin_newton.
  replace (b + (exp (- (2 * b)) - exp (2 * b)) / 4 - b) with ((exp (- (2 * b)) - exp (2 * b)) / 4) by ring.
  destruct (Rle_dec 0 b) as [P|P].
  - rewrite Rabs_right in H by lra. assert (X := exp_ge_4x (2 * b) ltac:(lra)).
    assert (Y : exp (- (2 * b)) <= 1). { rewrite <- exp_0. left. apply exp_increasing. lra. }
    split; rewrite Rabs_left by lra; lra.
  - rewrite Rabs_left in H by lra. assert (X := exp_ge_4x (- (2 * b)) ltac:(lra)).
    assert (Y : exp (2 * b) <= 1). { rewrite <- exp_0. left. apply exp_increasing. lra. }
    split; rewrite Rabs_right by lra; lra.
Qed.

Lemma C42_far_proof : forall fuel mrate itstab, itstab < 3 ->
  @weichert ROps fuel [1; 1] [5; 7] [1; 1] mrate (3 / 2) itstab = Err OutOfFuel.
Proof.
  intros fuel mrate itstab HT. unfold weichert.
  assert (G : forall fuel m b, 3 / 2 <= Rabs b ->
    @weichert_loop ROps fuel [1; 1] [5; 7] [1; 1] m mrate b itstab = Err OutOfFuel).
  { clear fuel. induction fuel; intros m b Hb; [reflexivity|].
    rewrite (loop_eval fuel [1; 1] [5; 7] [1; 1]); auto.
    - cbv zeta. cbn [combine]. replace (Rsum [1; 1]) with 2 by (cbn [Rsum fold_right]; unfold Rsum; cbn; ring).
      replace (Rsum (map2 Rmult [1; 1] [5; 7])) with 12 by (unfold Rsum; cbn; ring).
      destruct (two_bin_far b Hb) as [F1 F2].
      match goal with |- context [Rleb ?x ?y] => assert (X : Rleb x y = false) by (apply Rleb_false; lra) end.
      rewrite X. apply IHfuel. exact F1.
    - intros p [<-|[<-|[]]]; simpl; lra.
    - discriminate. }
  apply G. rewrite Rabs_right; lra.
Qed.

(** Counts falling by the factor ten per unit of magnitude under equal durations: the estimate
    is ln 10 (b-value 1) and the default start 1.5 leads to it. *)
Lemma b_one_returns : forall itstab mrate, 0 < itstab -> exists fuel r,
  @weichert ROps fuel [20; 20; 20] [5; 6; 7] [100; 10; 1] mrate (3 / 2) itstab = Ok r.
Proof.
  intros itstab mrate HT.
  destruct (C42_grid_proof [20; 20; 20] [5; 6; 7] [100; 10; 1] 5 1 0) as (best & L' & L'' & M & D1 & D2 & G); auto.
  - intros t [<-|[<-|[<-|[]]]]; lra.
  - intros n [<-|[<-|[<-|[]]]]; lra.
  - lra.
  - intros [|[|[|i]]] m Hm; simpl in Hm; try (injection Hm as <-; simpl; lra).
    destruct i; discriminate.
  - intros [|[|[|i]]] t t' Ht Ht'; simpl in Ht, Ht'; try discriminate;
      try (injection Ht as <-; injection Ht' as <-; rewrite Rmult_0_l, exp_0; lra).

  - exists 10, 6, 5. simpl. repeat split; auto; lra.
  - exists 10, 6, 7. simpl. repeat split; auto; lra.
  - assert (EB : best = ln 10).
    { set (bins := combine [20; 20; 20] [5; 6; 7]) in *.
      assert (P : durations_positive bins) by (intros p [<-|[<-|[<-|[]]]]; simpl; lra).
      assert (TD : exists p q, In p bins /\ In q bins /\ snd p <> snd q).
      { exists (20, 5), (20, 6). simpl. repeat split; auto. lra. }
      assert (X := estimate_max bins (Rsum [100; 10; 1]) (Rsum (map2 Rmult [100; 10; 1] [5; 6; 7])) P TD
        ltac:(unfold Rsum; simpl; lra) (ln 10)).
      destruct (Req_dec best (ln 10)) as [E|E]; auto. exfalso.
      assert (Y := M (ln 10) ltac:(congruence)).
      assert (D0 : dL bins (Rsum [100; 10; 1]) (Rsum (map2 Rmult [100; 10; 1] [5; 6; 7])) (ln 10) = 0).
      { unfold dL, wmu, wmom, bins, Rsum. cbn [combine map fold_right fst snd pow map2].
        replace (- ln 10 * 6) with (- ln 10 * 5 + - ln 10) by ring.
        replace (- ln 10 * 7) with (- ln 10 * 5 + - ln 10 + - ln 10) by ring.
        rewrite !exp_plus, exp_Ropp, exp_ln by lra.
        assert (e := exp_pos (- ln 10 * 5)). set (x := exp (- ln 10 * 5)) in *. field. lra. }
      assert (Z' := X D0 best E). lra. }
    assert (LB : 3 / 2 <= best).
    { rewrite EB. apply Rnot_lt_le. intros H. apply exp_increasing in H. rewrite exp_ln in H by lra.
      assert (X := exp_ineq1_le (- (1 / 4))). assert (e := exp_pos (1 / 4)). rewrite exp_Ropp in X.
      assert (Y : exp (1 / 4) <= 4 / 3).
      { apply (Rmult_le_reg_l (/ exp (1 / 4))). apply Rinv_0_lt_compat; auto. rewrite Rinv_l by lra. lra. }
      replace (3 / 2) with (1 / 4 + 1 / 4 + 1 / 4 + 1 / 4 + 1 / 4 + 1 / 4) in H by lra.
      rewrite !exp_plus in H. set (z := exp (1 / 4)) in *.
      assert (z * z * z * z * z * z <= (4/3) * (4/3) * (4/3) * (4/3) * (4/3) * (4/3)).
      { repeat apply Rmult_le_compat; repeat apply Rmult_le_pos; lra. }
      lra. }
    apply G; auto; lra.
Qed.
