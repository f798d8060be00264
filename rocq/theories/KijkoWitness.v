(** A catalogue whose Kijko estimate is below its largest magnitude (C48), the bandwidth
    (C51) and the dispatch (C52). *)
From Coq Require Import String ZArith Arith Bool List Lia Reals Lra Permutation Sorted.
From Verif Require Import Base Ops BaseFacts RFacts SteppSpec MaxMag SteppProofs GeoProofs MaxMagProofs
  KijkoProofs.
Import ListNotations.
Local Open Scope R_scope.

Definition w48 : list R :=
  [4; 5; 5; 5; 502/100; 502/100; 502/100; 502/100; 502/100; 6; 6].

Lemma sorted_sortv : forall l, StronglySorted Rle l -> @sortv ROps l = l.
Proof. intros l H. apply sorted_unique; auto. apply sortv_sorted. symmetry. apply sortv_perm. Qed.

Ltac ssorted := repeat first [apply SSorted_nil | apply SSorted_cons | apply Forall_nil | apply Forall_cons]; try lra.

Lemma w48_sorted : StronglySorted Rle w48.
Proof. unfold w48. ssorted. Qed.

(** Quantile with the rank and weight given. *)
Lemma mquantile_at : forall (mag x : list R) p aleph k, @sortv ROps mag = x -> (2 <= length x)%nat ->
  aleph = INR (length x) * p + (4 / 10 + p * (1 - 4 / 10 - 4 / 10)) ->
  1 <= aleph <= INR (length x) - 1 -> INR k <= aleph < INR k + 1 ->
  @mquantile ROps mag p = (1 - (aleph - INR k)) * nth (k - 1) x 0 + (aleph - INR k) * nth k x 0.
Proof.
  intros mag x p aleph k EX LX EA RA RK. unfold mquantile. rops. rewrite EX.
  destruct x as [|a [|b x]]; simpl in LX; try lia.
  set (y := a :: b :: x) in *. unfold lit. rewrite !ofnat_R. rops. rewrite <- EA.
  assert (C1 : @clip ROps 1 (INR (length y) - 1) aleph = aleph).
  { unfold clip. rops. rdec. auto. }
  rops. rewrite C1.
  assert (FK : Rfloor aleph = Z.of_nat k). { apply Rfloor_unique. rewrite <- INR_IZR_INZ. lra. }
  rewrite FK, Rtrunc_IZR, Nat2Z.id.
  assert (C2 : @clip ROps 0 1 (aleph - INR k) = aleph - INR k). { unfold clip. rops. rdec. auto. }
  rops. rewrite C2. reflexivity.
Qed.

Lemma w48_q25 : @mquantile ROps w48 (25/100) = 5.
Proof.
  rewrite (mquantile_at w48 w48 (25/100) (32/10) 3); [unfold w48; simpl; lra|apply sorted_sortv, w48_sorted|simpl; lia| | |];
    unfold w48; simpl; lra.
Qed.
Lemma w48_q75 : @mquantile ROps w48 (75/100) = 502/100.
Proof.
  rewrite (mquantile_at w48 w48 (75/100) (88/10) 8); [unfold w48; simpl; lra|apply sorted_sortv, w48_sorted|simpl; lia| | |];
    unfold w48; simpl; lra.
Qed.

(** x^(-1/5) is between 1/2 and 1 for 1 <= x <= 32. *)
Lemma fifth_root : forall x, 1 <= x <= 32 -> 1 / 2 <= Rpower x (- (1) / 5) <= 1.
Proof.
  intros x [H1 H2].
  replace (- (1) / 5) with (- (1 / 5)) by lra. rewrite Rpower_Ropp.
  assert (P1 : 1 <= Rpower x (1 / 5)).
  { replace 1 with (Rpower x 0) at 1 by (apply Rpower_O; lra). destruct (Req_dec x 1) as [->|N].
    - unfold Rpower. rewrite ln_1, !Rmult_0_r. lra.
    - left. apply Rpower_lt; lra. }
  assert (P2 : Rpower x (1 / 5) <= 2).
  { replace 2 with (Rpower 32 (1 / 5)).
    - apply Rle_Rpower_l; lra.
    - replace 32 with (2 ^ 5) by (simpl; lra). rewrite <- Rpower_pow by lra. rewrite Rpower_mult.
      replace (INR 5 * (1 / 5)) with 1 by (simpl; lra). apply Rpower_1. lra. }
  set (y := Rpower x (1 / 5)) in *. clearbody y. split.
  - replace (1 / 2) with (/ 2) by lra. apply Rinv_le_contravar; lra.
  - rewrite <- Rinv_1. apply Rinv_le_contravar; lra.
Qed.

Lemma w48_h : @h_smooth ROps w48 = 1 / 100.
Proof.
  unfold h_smooth, lit. rewrite ofnat_R. rops.
  assert (E1 := w48_q25). assert (E2 := w48_q75). rops. rewrite E1, E2.
  replace (INR (length w48)) with 11 by (unfold w48; simpl; lra).
  assert (R := fifth_root 11 ltac:(lra)). change (- (1) / 5) with (- (1) / 5) in R.
  set (r := Rpower 11 (- (1) / 5)) in *.
  set (v := 100 * (9 / 10 * ((502 / 100 - 5) / (134 / 100)) * r)).
  assert (V : 67 / 100 <= v <= 135 / 100) by (unfold v; lra).
  replace (Rrint v) with 1%Z; [lra|].
  assert (N := Rrint_near v). 
  assert (A : -(1/2) <= IZR (Rrint v) - v <= 1/2). { unfold Rabs in N. destruct (Rcase_abs _); lra. }
  assert (B1 : 0 < IZR (Rrint v)) by lra. assert (B2 : IZR (Rrint v) < 2) by lra.
  apply lt_IZR in B1, B2. lia.
Qed.

Lemma hst_far : forall x, (x < -5 \/ 5 < x) -> hst x = 1.
Proof. intros x [H|H]; unfold hst. rdec. auto. destruct (Rltb x (-5)); auto. rdec. auto. Qed.
Lemma hst_mid : hst 0 = 1 / 2.
Proof. unfold hst. rdec. apply hup_0. Qed.

Definition w48_mid : R := ln ((exp 4 + exp 6) / 2).

Lemma w48_mid_range : 51/10 <= w48_mid <= 59/10.
Proof.
  assert (P4 := exp_pos 4). assert (P6 := exp_pos 6).
  assert (E6 : exp 6 = exp 4 * exp 2) by (rewrite <- exp_plus; f_equal; lra).
  assert (E2 : 3 <= exp 2). { assert (X := exp_ineq1_le 2). lra. }
  split.
  - rewrite <- (ln_exp (51/10)). unfold w48_mid.
    assert (X : exp (51/10) < exp 6 / 2).
    { replace 6 with (51/10 + 9/10) by lra. rewrite exp_plus.
      assert (2 < exp (9/10)).
      { replace (9/10) with (45/100 + 45/100) by lra. rewrite exp_plus. assert (Y := exp_ineq1_le (45/100)). nra. }
      assert (Z := exp_pos (51/10)). nra. }
    left. apply ln_increasing. apply exp_pos. lra.
  - rewrite <- (ln_exp (59/10)). unfold w48_mid.
    assert (X : (exp 4 + exp 6) / 2 < exp (59/10)).
    { replace (59/10) with (6 + - (1/10)) by lra. rewrite exp_plus.
      assert (9/10 <= exp (-(1/10))). { assert (Y := exp_ineq1_le (-(1/10))). lra. }
      assert (exp 6 * (9/10) <= exp 6 * exp (-(1/10))) by (apply Rmult_le_compat_l; lra). nra. }
    left. apply ln_increasing. lra. lra.
Qed.

Lemma w48_points : @exp_spaced_points ROps 4 6 3 = [4; w48_mid; 6].
Proof.
  destruct (C46_proof 4 6 3 ltac:(lra) ltac:(lia)) as (L & F & LA & EX & _).
  set (pts := @exp_spaced_points ROps 4 6 3) in *.
  destruct pts as [|p0 [|p1 [|p2 [|p3 pts]]]]; simpl in L; try lia.
  simpl in F, LA. injection F. injection LA. intros -> ->.
  specialize (EX 1%nat p1 eq_refl). simpl INR in EX.
  f_equal. f_equal. unfold w48_mid. rewrite <- (ln_exp p1). f_equal. rewrite EX. field.
Qed.

Lemma w48_terms : forall t, (t = 4 \/ t = 6 \/ 51/10 <= t <= 59/10) ->
  Rsum (map (fun m => hst ((t - m) / (1/100)) - hst ((4 - m) / (1/100))) w48)
  = if Req_EM_T t 4 then 0 else if Req_EM_T t 6 then - (1/2) else 1/2.
Proof.
  intros t H. unfold w48. cbn [map Rsum].
  replace ((4 - 4) / (1/100)) with 0 by field. rewrite hst_mid.
  rewrite (hst_far ((4 - 5) / (1/100))) by lra.
  rewrite (hst_far ((4 - 502/100) / (1/100))) by lra.
  rewrite (hst_far ((4 - 6) / (1/100))) by lra.
  destruct (Req_EM_T t 4) as [->|N4].
  - replace ((4 - 4) / (1/100)) with 0 by field. rewrite hst_mid.
    rewrite (hst_far ((4 - 5) / (1/100))) by lra.
    rewrite (hst_far ((4 - 502/100) / (1/100))) by lra.
    rewrite (hst_far ((4 - 6) / (1/100))) by lra. lra.
  - destruct (Req_EM_T t 6) as [->|N6].
    + replace ((6 - 6) / (1/100)) with 0 by field. rewrite hst_mid.
      rewrite (hst_far ((6 - 4) / (1/100))) by lra.
      rewrite (hst_far ((6 - 5) / (1/100))) by lra.
      rewrite (hst_far ((6 - 502/100) / (1/100))) by lra. lra.
    + assert (51/10 <= t <= 59/10) by (destruct H as [H|[H|H]]; [contradiction|contradiction|auto]).
      rewrite (hst_far ((t - 4) / (1/100))) by lra.
      rewrite (hst_far ((t - 5) / (1/100))) by lra.
      rewrite (hst_far ((t - 502/100) / (1/100))) by lra.
      rewrite (hst_far ((t - 6) / (1/100))) by lra. lra.
Qed.

Lemma w48_delta : exists d, @kijko_delta ROps 4 3 w48 (1/100) 11 6 = Ok d /\ -95/100 <= d <= -55/100.
Proof.
  assert (MR := w48_mid_range).
  unfold kijko_delta, kijko_npg_intfunc_simps. rewrite w48_points.
  assert (E1 : @minv ROps [4; w48_mid; 6] = Ok 4).
  { apply minv_spec. split; simpl; auto. intros y [<-|[<-|[<-|[]]]]; lra. }
  assert (E2 : @maxv ROps [4; w48_mid; 6] = Ok 6).
  { apply maxv_spec. split; simpl; auto. intros y [<-|[<-|[<-|[]]]]; lra. }
  rops. rewrite E1, E2. cbn [bind].
  assert (D : @integrate ROps [4; w48_mid; 6] (map (@kijko_cdf ROps 4 6 w48 (1/100) 11) [4; w48_mid; 6])
     = Ok (trapezoid [4; w48_mid; 6] (map (@kijko_cdf ROps 4 6 w48 (1/100) 11) [4; w48_mid; 6]))).
  { apply integrate_trapezoid. reflexivity. simpl. lia. }
  eexists. split; [exact D|].
  cbn [map trapezoid]. rewrite !kijko_cdf_eval.
  assert (T4 := w48_terms 4 ltac:(auto)). assert (T6 := w48_terms 6 ltac:(auto)).
  assert (TM := w48_terms w48_mid ltac:(auto)).
  rewrite T4, T6, TM.
  destruct (Req_EM_T 4 4); [|lra]. destruct (Req_EM_T 6 4); [lra|]. destruct (Req_EM_T 6 6); [|lra].
  destruct (Req_EM_T w48_mid 4); [lra|]. destruct (Req_EM_T w48_mid 6); [lra|].
  replace (0 / - (1/2)) with 0 by field. replace (1/2 / - (1/2)) with (-1) by field.
  replace (- (1/2) / - (1/2)) with 1 by field. rewrite pow1. rewrite pow_i by lia.
  replace ((-1) ^ 11) with (-1) by (simpl; lra). lra.
Qed.

Lemma C48_refuted_proof : exists (year mag sig : list R) tol maxit neq nsamp mmax sigma,
  length mag = length sig /\ 0 < tol /\ (2 <= nsamp)%nat /\ (length mag <= neq)%nat /\
  (forall fuel normals, (1 <= fuel)%nat ->
     @maximum_magnitude_analysis ROps fuel year mag sig "Kijko_Npg" tol maxit neq nsamp normals
     = Ok (mmax, sigma)) /\
  exists m, In m mag /\ mmax < m.
Proof.
  destruct w48_delta as (d & D1 & D2).
  exists (map (fun _ => 2000) w48), w48, (map (fun _ => 1/10) w48), 1, 1000%nat, 11%nat, 3%nat, (6 + d),
    (sqrt (1/10 * (1/10) + d * d)).
  split; [reflexivity|]. split; [lra|]. split; [lia|]. split; [simpl; lia|]. split.
  - intros fuel normals HF. unfold maximum_magnitude_analysis.
    replace (String.eqb "Kijko_Npg" "Kijko_Npg") with true by reflexivity.
    unfold kijko_nonparametric_gauss.
    assert (OM : @observed_max ROps w48 (map (fun _ => 1/10) w48) None = Ok (6, 1/10)).
    { unfold observed_max, w48. cbn [map]. f_equal. cbn [argmax_from]. rops.
      repeat match goal with |- context [Rltb ?x ?y] =>
        first [ replace (Rltb x y) with true by (symmetry; apply Rltb_true; lra)
              | replace (Rltb x y) with false by (symmetry; apply Rltb_false; lra) ]; cbv iota end. reflexivity. }
    rops. rewrite OM. cbn [bind].
    replace (@largest ROps w48 11) with (w48, 11%nat) by reflexivity.
    assert (MN : @minv ROps w48 = Ok 4).
    { apply minv_spec. split; simpl; auto. intros y H. unfold w48 in H. simpl in H.
      repeat (destruct H as [<-|H]; [lra|]). destruct H. }
    rewrite MN. cbn [bind]. assert (H := w48_h). rops. rewrite H.
    destruct fuel as [|fuel]; [lia|]. cbn [kijko_loop]. rops. rdec. rewrite D1. cbn [bind].
    replace (Nat.ltb 1000 1) with false by reflexivity.
    assert (AB : Rabs (6 + d - 6) <= 1). { apply Rabs_le. lra. }
    assert (ST : @kijko_loop ROps fuel (@kijko_delta ROps 4 3 w48 (1 / 100) 11) 6 1 1000 (Rabs (6 + d - 6)) (6 + d) (Some d) 1
      = Ok (6 + d, Some d, 1%nat)).
    { destruct fuel; cbn [kijko_loop]; rops; rdec; reflexivity. }
    rops. rewrite ST. cbn [bind]. unfold sq. reflexivity.
  - exists 6. split. unfold w48. simpl. tauto. lra.
Qed.

(** ** Bandwidth *)

Definition population_std (l : list R) : R :=
  let mu := Rsum l / INR (length l) in
  sqrt (Rsum (map (fun x => (x - mu) * (x - mu)) l) / INR (length l)).

(** r is x rounded to two decimals. *)
Definition two_decimals (x r : R) : Prop := (exists z : Z, r = IZR z / 100) /\ Rabs (r - x) <= 1 / 200.

Definition iqr (mag : list R) : R := @mquantile ROps mag (75/100) - @mquantile ROps mag (25/100).

Lemma h_smooth_spec : forall mag : list R,
  two_decimals (9/10 * (iqr mag / (134/100)) * Rpower (INR (length mag)) (- (1) / 5)) (@h_smooth ROps mag).
Proof.
  intros mag. unfold h_smooth, lit. rewrite ofnat_R. rops. fold (iqr mag).
  set (v := 9/10 * (iqr mag / (134/100)) * Rpower (INR (length mag)) (- (1) / 5)).
  split. { exists (Rrint (100 * v)). reflexivity. }
  assert (N := Rrint_near (100 * v)).
  replace (IZR (Rrint (100 * v)) / 100 - v) with ((IZR (Rrint (100 * v)) - 100 * v) / 100) by field.
  unfold Rdiv. rewrite Rabs_mult, (Rabs_right (/ 100)) by lra. lra.
Qed.

Lemma C51_refuted_proof : exists mag : list R, (2 <= length mag)%nat /\
  ~ two_decimals (9/10 * Rmin (population_std mag) (iqr mag / (134/100)) * Rpower (INR (length mag)) (- (1) / 5))
      (@h_smooth ROps mag).
Proof.
  exists [4; 6]. split; [simpl; lia|]. intros [_ H].
  assert (HS := h_smooth_spec [4; 6]). destruct HS as [_ HS].
  assert (R := fifth_root (INR (length [4; 6])) ltac:(simpl; lra)).
  set (r := Rpower (INR (length [4; 6])) (- (1) / 5)) in *.
  assert (SD : population_std [4; 6] = 1).
  { unfold population_std. cbn [map Rsum length]. simpl INR.
    replace (((4 - (4 + (6 + 0)) / (1 + 1)) * (4 - (4 + (6 + 0)) / (1 + 1)) +
      ((6 - (4 + (6 + 0)) / (1 + 1)) * (6 - (4 + (6 + 0)) / (1 + 1)) + 0)) / (1 + 1)) with 1 by field. apply sqrt_1. }
  assert (SO : @sortv ROps [4; 6] = [4; 6]). { apply sorted_sortv. ssorted. }
  assert (IQ : iqr [4; 6] = 2).
  { unfold iqr, mquantile. rops. rewrite SO. unfold lit. rewrite !ofnat_R. rops. cbn [length]. simpl INR.
    unfold clip. rops.
    assert (C1 : Rltb ((1 + 1) * (75 / 100) + (4 / 10 + 75 / 100 * (1 - 4 / 10 - 4 / 10))) 1 = false) by (apply Rltb_false; lra).
    assert (C2 : Rltb (1 + 1 - 1) ((1 + 1) * (75 / 100) + (4 / 10 + 75 / 100 * (1 - 4 / 10 - 4 / 10))) = true) by (apply Rltb_true; lra).
    assert (C3 : Rltb ((1 + 1) * (25 / 100) + (4 / 10 + 25 / 100 * (1 - 4 / 10 - 4 / 10))) 1 = true) by (apply Rltb_true; lra).
    rewrite C1, C2, C3.
    replace (1 + 1 - 1) with (IZR 1) by lra. rewrite Rfloor_IZR, Rtrunc_IZR.
    change (Z.to_nat 1) with 1%nat. change (INR 1) with 1. 
    assert (C4 : Rltb ((1 + 1) * (75 / 100) + (4 / 10 + 75 / 100 * (1 - 4 / 10 - 4 / 10)) - 1) 0 = false) by (apply Rltb_false; lra).
    assert (C5 : Rltb 1 ((1 + 1) * (75 / 100) + (4 / 10 + 75 / 100 * (1 - 4 / 10 - 4 / 10)) - 1) = true) by (apply Rltb_true; lra).
    assert (C6 : Rltb ((1 + 1) * (25 / 100) + (4 / 10 + 25 / 100 * (1 - 4 / 10 - 4 / 10)) - 1) 0 = true) by (apply Rltb_true; lra).
    rewrite C4, C5, C6. simpl nth. lra. }
  rewrite IQ in HS. rewrite SD, IQ in H. rewrite Rmin_left in H by lra.
  unfold Rabs in H, HS. destruct (Rcase_abs _); destruct (Rcase_abs _); lra.
Qed.

Lemma nth_sorted_le : forall (l : list R) i j, StronglySorted Rle l -> (i <= j < length l)%nat ->
  nth i l 0 <= nth j l 0.
Proof.
  induction l as [|a l IH]; intros i j H L; simpl in L; [lia|]. inversion H; subst. rewrite Forall_forall in H3.
  destruct i, j; simpl; try lia; try lra.
  - apply H3. apply nth_In. lia.
  - apply IH; auto. lia.
Qed.

