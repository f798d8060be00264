(** Windows, decimal year and haversine distance over the reals. *)
From Coq Require Import ZArith List Bool Arith Lia Reals Lra Ratan.
From Verif Require Import Base Ops BaseFacts RFacts CatUtil Decluster CalendarSpec.
Import ListNotations.
Local Open Scope R_scope.

(** ** Haversine *)

Definition hav_a (lon1 lat1 lon2 lat2 : R) : R :=
  sin ((lat1 - lat2) / 2) * sin ((lat1 - lat2) / 2)
  + cos lat1 * cos lat2 * (sin ((lon1 - lon2) / 2) * sin ((lon1 - lon2) / 2)).

Lemma half_angle : forall x, 1 - 2 * (sin (x / 2) * sin (x / 2)) = cos x.
Proof.
  intros. replace (cos x) with (cos (2 * (x / 2))) by (f_equal; field).
  rewrite cos_2a_sin. ring.
Qed.

Lemma hav_cos : forall lon1 lat1 lon2 lat2,
  1 - 2 * hav_a lon1 lat1 lon2 lat2
  = sin lat1 * sin lat2 + cos lat1 * cos lat2 * cos (lon1 - lon2).
Proof.
  intros. unfold hav_a.
  assert (H1 := half_angle (lat1 - lat2)). assert (H2 := half_angle (lon1 - lon2)).
  rewrite cos_minus in H1.
  set (s1 := sin ((lat1 - lat2) / 2) * sin ((lat1 - lat2) / 2)) in *.
  set (s2 := sin ((lon1 - lon2) / 2) * sin ((lon1 - lon2) / 2)) in *.
  rewrite <- H2. lra.
Qed.

Lemma law_of_cosines_bound : forall a b k, -1 <= k <= 1 ->
  -1 <= sin a * sin b + cos a * cos b * k <= 1.
Proof.
  intros a b k Hk.
  assert (H1 := COS_bound (a - b)). rewrite cos_minus in H1.
  assert (H2 := COS_bound (a + b)). rewrite cos_plus in H2.
  destruct (Rle_dec 0 (cos a * cos b)); nra.
Qed.

Lemma hav_range : forall lon1 lat1 lon2 lat2, 0 <= hav_a lon1 lat1 lon2 lat2 <= 1.
Proof.
  intros. assert (H := hav_cos lon1 lat1 lon2 lat2).
  assert (B := law_of_cosines_bound lat1 lat2 (cos (lon1 - lon2)) (COS_bound _)). lra.
Qed.

Lemma atan2_half : forall a, 0 <= a <= 1 ->
  let phi := Ratan2 (sqrt a) (sqrt (1 - a)) in
  0 <= phi <= PI / 2 /\ cos (2 * phi) = 1 - 2 * a.
Proof.
  intros a Ha phi. unfold phi, Ratan2. clear phi.
  assert (P := PI_RGT_0).
  destruct (Rlt_dec 0 (sqrt (1 - a))) as [L|L].
  - assert (1 - a <> 0). { intros E. rewrite E, sqrt_0 in L. lra. }
    assert (Hs : 0 <= sqrt a) by apply sqrt_pos.
    set (x := sqrt a / sqrt (1 - a)).
    assert (Hx : 0 <= x). { apply Rmult_le_pos; auto. left. apply Rinv_0_lt_compat; auto. }
    assert (B := atan_bound x).
    assert (A0 : 0 <= atan x).
    { rewrite <- atan_0. destruct (Rle_lt_or_eq_dec 0 x Hx) as [Hlt|<-]; [|lra].
      left. apply atan_increasing; auto. }
    split; [lra|].
    rewrite cos_2a_sin. rewrite sin_atan.
    assert (X2 : x * x = a / (1 - a)).
    { unfold x. unfold Rdiv.
      replace (sqrt a * / sqrt (1 - a) * (sqrt a * / sqrt (1 - a)))
        with ((sqrt a * sqrt a) * / (sqrt (1 - a) * sqrt (1 - a))) by (field; lra).
      rewrite !sqrt_sqrt by lra. auto. }
    assert (Q : 0 < sqrt (1 + x²)).
    { apply sqrt_lt_R0. unfold Rsqr. nra. }
    replace (2 * (x / sqrt (1 + x²)) * (x / sqrt (1 + x²)))
      with (2 * ((x * x) / (sqrt (1 + x²) * sqrt (1 + x²)))) by (field; lra).
    rewrite sqrt_sqrt by (unfold Rsqr; nra). unfold Rsqr. rewrite X2. field. lra.
  - assert (sqrt (1 - a) = 0) by (assert (Q := sqrt_pos (1 - a)); lra).
    assert (a = 1). { apply sqrt_eq_0 in H; lra. }
    subst a. rewrite H. destruct (Rlt_dec 0 0); [lra|].
    rewrite sqrt_1. destruct (Rlt_dec 0 1); [|lra].
    split; [lra|]. replace (2 * (PI / 2)) with PI by field. rewrite cos_PI. lra.
Qed.

Lemma hav_central : forall erad lon1 lat1 lon2 lat2,
  @haversine_rad ROps erad lon1 lat1 lon2 lat2
  = erad * acos (sin lat1 * sin lat2 + cos lat1 * cos lat2 * cos (lon1 - lon2)).
Proof.
  intros. unfold haversine_rad, sq. rops. fold (hav_a lon1 lat1 lon2 lat2).
  rewrite <- hav_cos. destruct (atan2_half _ (hav_range lon1 lat1 lon2 lat2)) as [B C].
  rewrite <- C. rewrite acos_cos by lra. ring.
Qed.

Lemma C28_formula : forall erad lon1 lat1 lon2 lat2,
  let d := PI / 180 in
  @haversine1 ROps false erad lon1 lat1 lon2 lat2
  = erad * acos (sin (d * lat1) * sin (d * lat2)
                 + cos (d * lat1) * cos (d * lat2) * cos (d * (lon1 - lon2))).
Proof.
  intros. unfold haversine1. rewrite hav_central. rops. fold d.
  replace (d * (lon1 - lon2)) with (d * lon1 - d * lon2) by ring. auto.
Qed.

Lemma hav_sym : forall erad lon1 lat1 lon2 lat2,
  @haversine1 ROps false erad lon1 lat1 lon2 lat2 = @haversine1 ROps false erad lon2 lat2 lon1 lat1.
Proof.
  intros. rewrite !C28_formula. f_equal. f_equal.
  replace (PI / 180 * (lon1 - lon2)) with (- (PI / 180 * (lon2 - lon1))) by ring.
  rewrite cos_neg. ring.
Qed.

Lemma hav_self : forall erad lon lat, @haversine1 ROps false erad lon lat lon lat = 0.
Proof.
  intros. rewrite C28_formula. rewrite Rminus_diag_eq by auto. rewrite Rmult_0_r, cos_0, Rmult_1_r.
  assert (H := sin2_cos2 (PI / 180 * lat)). unfold Rsqr in H. rewrite H.
  rewrite acos_1. apply Rmult_0_r.
Qed.

Lemma hav_bounds : forall erad lon1 lat1 lon2 lat2, 0 <= erad ->
  0 <= @haversine1 ROps false erad lon1 lat1 lon2 lat2 <= PI * erad.
Proof.
  intros. rewrite C28_formula.
  match goal with |- context [acos ?x] => assert (B := acos_bound x) end. nra.
Qed.

(** On the equator the distance is the arc between the two longitudes. *)
Lemma hav_equator : forall erad lon1 lon2, 0 <= lon1 - lon2 <= 180 ->
  @haversine1 ROps false erad lon1 0 lon2 0 = erad * (PI / 180 * (lon1 - lon2)).
Proof.
  intros. rewrite C28_formula. rewrite Rmult_0_r, sin_0, cos_0.
  replace (0 * 0 + 1 * 1 * cos (PI / 180 * (lon1 - lon2))) with (cos (PI / 180 * (lon1 - lon2))) by ring.
  rewrite acos_cos; auto. assert (P := PI_RGT_0). nra.
Qed.

Lemma C28_proof : forall (set1 set2 : list (R * R)) (erad : R), 0 <= erad ->
  let m := @haversine ROps set1 set2 false erad in
  length m = length set1 /\
  (forall row, In row m -> length row = length set2) /\
  (forall i j lon1 lat1 lon2 lat2 row,
     nth_error set1 i = Some (lon1, lat1) -> nth_error set2 j = Some (lon2, lat2) ->
     nth_error m i = Some row ->
     exists x, nth_error row j = Some x /\
       0 <= x <= PI * erad /\
       (forall k, k = PI / 180 ->
        x = erad * acos (sin (k * lat1) * sin (k * lat2)
                         + cos (k * lat1) * cos (k * lat2) * cos (k * (lon1 - lon2)))) /\
       ((lon1, lat1) = (lon2, lat2) -> x = 0)).
Proof.
  intros set1 set2 erad He m. unfold m, haversine. split; [|split].
  - apply map_length.
  - intros row H. apply in_map_iff in H. destruct H as (p & <- & _). apply map_length.
  - intros i j lon1 lat1 lon2 lat2 row H1 H2 Hr.
    apply nth_error_map_inv in Hr. destruct Hr as (p & Hp & ->).
    assert (p = (lon1, lat1)) by (rops; congruence). subst p.
    eexists. split. apply map_nth_error. exact H2. simpl. split.
    apply hav_bounds; auto. split.
    + intros k ->. apply C28_formula.
    + intros E. injection E; intros -> ->. apply hav_self.
Qed.

Lemma C28_symmetric : forall (set1 set2 : list (R * R)) (erad : R) i j r1 r2 x y,
  nth_error (@haversine ROps set1 set2 false erad) i = Some r1 -> nth_error r1 j = Some x ->
  nth_error (@haversine ROps set2 set1 false erad) j = Some r2 -> nth_error r2 i = Some y ->
  x = y.
Proof.
  intros set1 set2 erad i j r1 r2 x y H1 H2 H3 H4. unfold haversine in *.
  apply nth_error_map_inv in H1. destruct H1 as (p & Hp & ->).
  apply nth_error_map_inv in H2. destruct H2 as (q & Hq & ->).
  apply nth_error_map_inv in H3. destruct H3 as (q' & Hq' & ->).
  apply nth_error_map_inv in H4. destruct H4 as (p' & Hp' & ->).
  assert (p' = p) by congruence. assert (q' = q) by congruence. subst.
  apply hav_sym.
Qed.

(** ** Windows *)

Lemma lit_R : forall p q, @lit ROps p q = IZR p / IZR q.
Proof. reflexivity. Qed.

Lemma Rpower_pos : forall x y, 0 < Rpower x y.
Proof. intros. unfold Rpower. apply exp_pos. Qed.

Lemma power10_mono : forall x y, x <= y -> Rpower 10 x <= Rpower 10 y.
Proof. intros. apply Rle_Rpower; lra. Qed.

Lemma power10_lt : forall x y, x < y -> Rpower 10 x < Rpower 10 y.
Proof. intros. apply Rpower_lt; lra. Qed.

Lemma exp_mono : forall x y, x <= y -> exp x <= exp y.
Proof. intros. destruct H. left. apply exp_increasing; auto. subst; lra. Qed.

Lemma windows_positive : forall w f m, @window_calc ROps w = Ok f ->
  0 < fst (f m) /\ 0 < snd (f m).
Proof.
  intros w f m H. destruct w; simpl in H; try discriminate; injection H; intros <-; simpl.
  - split. apply Rpower_pos.
    destruct (Rltb _ _); apply Rdiv_lt_0_compat; try lra; apply Rpower_pos.
  - split. apply exp_pos. destruct (Rleb _ _).
    + apply Rdiv_lt_0_compat; try lra; apply Rpower_pos.
    + rewrite Rabs_pos_eq. apply Rdiv_lt_0_compat; try lra; apply exp_pos.
      left. apply Rdiv_lt_0_compat; try lra; apply exp_pos.
  - split; apply exp_pos.
Qed.

(** exp x < 1/(1 - x/n)^n. *)
Lemma exp_upper : forall x n, (0 < n)%nat -> 0 < 1 - x / INR n ->
  exp x * (1 - x / INR n) ^ n <= 1.
Proof.
  intros x n Hn H.
  assert (Nz : 0 < INR n) by (apply lt_0_INR; auto).
  assert (E : exp x = exp (x / INR n) ^ n).
  { rewrite <- Rpower_pow by apply exp_pos. unfold Rpower. rewrite ln_exp. f_equal. field. lra. }
  rewrite E, <- Rpow_mult_distr.
  assert (P : 0 < exp (x / INR n)) by apply exp_pos.
  assert (B : 1 + - (x / INR n) <= exp (- (x / INR n))).
  { destruct (Req_dec (x / INR n) 0) as [->|Hx].
    - rewrite Ropp_0, exp_0. lra.
    - left. apply exp_ineq1. lra. }
  rewrite exp_Ropp in B.
  assert (0 <= exp (x / INR n) * (1 - x / INR n) <= 1).
  { split. apply Rmult_le_pos; lra.
    apply Rmult_le_compat_l with (r := exp (x / INR n)) in B; [|lra].
    rewrite Rinv_r in B by lra. lra. }
  apply Rle_trans with (1 ^ n); [apply pow_incr; auto | rewrite pow1; lra].
Qed.

Lemma ln_10_lower : 227 / 100 < ln 10.
Proof.
  assert (H : exp (227 / 100) * (1 - (227/100) / INR 128) ^ 128 <= 1).
  { apply exp_upper. lia. replace (INR 128) with 128 by (rewrite INR_IZR_INZ; reflexivity). lra. }
  replace (INR 128) with 128 in H by (rewrite INR_IZR_INZ; reflexivity).
  assert (B : 1/10 < (1 - 227 / 100 / 128) ^ 128).
  { replace (1 - 227/100/128) with (12573/12800) by field.
    replace 128%nat with (2 * (2 * (2 * (2 * 8))))%nat by reflexivity.
    rewrite !pow_mult.
    assert (P2 : forall x y, 0 < y -> y <= x -> y ^ 2 <= x ^ 2) by (intros; apply pow_incr; lra).
    assert (G : 98226/100000 <= 12573/12800) by lra.
    assert (G1 : 9648/10000 <= (12573/12800)^2).
    { apply Rle_trans with ((98226/100000)^2). simpl; lra. apply P2; lra. }
    assert (G2 : 9308/10000 <= ((12573/12800)^2)^2).
    { apply Rle_trans with ((9648/10000)^2). simpl; lra. apply P2; lra. }
    assert (G3 : 8663/10000 <= (((12573/12800)^2)^2)^2).
    { apply Rle_trans with ((9308/10000)^2). simpl; lra. apply P2; lra. }
    assert (G4 : 7504/10000 <= ((((12573/12800)^2)^2)^2)^2).
    { apply Rle_trans with ((8663/10000)^2). simpl; lra. apply P2; lra. }
    apply Rlt_le_trans with ((7504/10000)^8). simpl; lra.
    apply pow_incr. lra. }
  assert (exp (227/100) < 10).
  { assert (P := exp_pos (227/100)).
    destruct (Rlt_dec (exp (227/100)) 10); auto. exfalso.
    assert (1 < exp (227/100) * (1 - 227 / 100 / 128) ^ 128); [|lra].
    apply Rlt_le_trans with (10 * (1 - 227 / 100 / 128) ^ 128). lra.
    apply Rmult_le_compat_r; lra. }
  apply exp_lt_inv. rewrite exp_ln by lra. auto.
Qed.

(** 10^x as an exponential. *)
Lemma power10_exp : forall x, Rpower 10 x = exp (x * ln 10).
Proof. reflexivity. Qed.

Lemma gruenthal_time_mono : forall m m', 0 <= m -> m <= m' ->
  snd (@gruenthal_window ROps m) <= snd (@gruenthal_window ROps m').
Proof.
  intros m m' H0 H. unfold gruenthal_window, lit. simpl. rops.
  assert (D : forall x y, x <= y -> x / 365 <= y / 365) by (intros; lra).
  assert (Ab : forall x, Rabs (exp x / 365) = exp x / 365).
  { intros. apply Rabs_pos_eq. assert (E := exp_pos x). lra. }
  rewrite !Ab.
  destruct (Rleb (65/10) m) eqn:E1; destruct (Rleb (65/10) m') eqn:E2;
    try apply Rleb_true in E1; try apply Rleb_false in E1;
    try apply Rleb_true in E2; try apply Rleb_false in E2.
  - apply D, power10_mono. lra.
  - lra.
  - apply D. rewrite power10_exp. apply exp_mono.
    assert (L := ln_10_lower).
    assert (S : sqrt (62/100 + 1732/100 * m) <= 1064/100).
    { replace (1064/100) with (sqrt (1064/100 * (1064/100))) by (apply sqrt_square; lra).
      apply sqrt_le_1; lra. }
    assert (2956/1000 * ln 10 <= (28/10 + 24/1000 * m') * ln 10).
    { apply Rmult_le_compat_r; lra. }
    lra.
  - apply D, exp_mono. apply Rplus_le_compat_l. apply sqrt_le_1; lra.
Qed.

Lemma uhrhammer_mono : forall m m', m <= m' ->
  fst (@uhrhammer_window ROps m) <= fst (@uhrhammer_window ROps m') /\
  snd (@uhrhammer_window ROps m) <= snd (@uhrhammer_window ROps m').
Proof.
  intros. unfold uhrhammer_window, lit. simpl. rops. split; apply exp_mono; lra.
Qed.

Lemma gruenthal_space_mono : forall m m', 0 <= m -> m <= m' ->
  fst (@gruenthal_window ROps m) <= fst (@gruenthal_window ROps m').
Proof.
  intros. unfold gruenthal_window, lit. simpl. rops. apply exp_mono, Rplus_le_compat_l, sqrt_le_1; lra.
Qed.

Lemma gk_space_mono : forall m m', m <= m' ->
  fst (@gk_window ROps m) <= fst (@gk_window ROps m').
Proof. intros. unfold gk_window, lit. simpl. rops. apply power10_mono. lra. Qed.

Lemma gk_time_mono : forall m m', m <= m' -> (m' < 65/10 \/ 65/10 <= m) ->
  snd (@gk_window ROps m) <= snd (@gk_window ROps m').
Proof.
  intros m m' H Hs. unfold gk_window, lit. simpl. rops.
  assert (D : forall x y, x <= y -> x / 365 <= y / 365) by (intros; lra).
  destruct Hs.
  - rdec. apply D, power10_mono. lra.
  - rdec. apply D, power10_mono. lra.
Qed.

Lemma C26_refuted_proof : exists m m', 0 <= m < m' /\
  snd (@gk_window ROps m') < snd (@gk_window ROps m).
Proof.
  exists (649/100), (65/10). split; [lra|]. unfold gk_window, lit. simpl. rops. rdec.
  apply Rmult_lt_compat_r. lra. apply power10_lt. lra.
Qed.

Lemma C26_partial_proof : forall w f m m', @window_calc ROps w = Ok f -> 0 <= m -> m <= m' ->
  0 < fst (f m) /\ 0 < snd (f m) /\ fst (f m) <= fst (f m') /\
  (w <> TDW_GARDNERKNOPOFF \/ m' < 65/10 \/ 65/10 <= m -> snd (f m) <= snd (f m')).
Proof.
  intros w f m m' H H0 Hm.
  destruct (windows_positive w f m H) as [P1 P2]. split; auto. split; auto.
  destruct w; simpl in H; try discriminate; injection H; intros <-.
  - split. apply gk_space_mono; auto. intros [?|?]; [congruence|]. apply gk_time_mono; auto.
  - split. apply gruenthal_space_mono; auto. intros _. apply gruenthal_time_mono; auto.
  - split. apply uhrhammer_mono; auto. intros _. apply uhrhammer_mono; auto.
Qed.

(** ** Decimal year *)

Lemma decimal_year_value : forall y m d, (1 <= m <= 12)%Z ->
  @decimal_year1 ROps y (IZR m) d
  = Ok (y + (IZR (days_before_nat (Z.to_nat (m - 1))) + d - 1) / 365).
Proof.
  intros y m d Hm. unfold decimal_year1. rops. rewrite <- minus_IZR, Rtrunc_IZR.
  assert (C : (m = 1 \/ m = 2 \/ m = 3 \/ m = 4 \/ m = 5 \/ m = 6 \/ m = 7 \/ m = 8 \/ m = 9
    \/ m = 10 \/ m = 11 \/ m = 12)%Z) by lia.
  unfold marker.
  repeat (destruct C as [->|C]; [reflexivity|]). subst. reflexivity.
Qed.

(** ** Triangle inequality *)

Lemma gram : forall u1 u2 u3 v1 v2 v3 w1 w2 w3 : R,
  let uu := u1*u1+u2*u2+u3*u3 in let vv := v1*v1+v2*v2+v3*v3 in let ww := w1*w1+w2*w2+w3*w3 in
  let uv := u1*v1+u2*v2+u3*v3 in let vw := v1*w1+v2*w2+v3*w3 in let uw := u1*w1+u2*w2+u3*w3 in
  (u1*(v2*w3-v3*w2) - u2*(v1*w3-v3*w1) + u3*(v1*w2-v2*w1))
  * (u1*(v2*w3-v3*w2) - u2*(v1*w3-v3*w1) + u3*(v1*w2-v2*w1))
  = uu*vv*ww + 2*uv*vw*uw - uu*vw*vw - vv*uw*uw - ww*uv*uv.
Proof. intros. unfold uu, vv, ww, uv, vw, uw. ring. Qed.

Lemma acos_triangle : forall x y z, -1 <= x <= 1 -> -1 <= y <= 1 -> -1 <= z <= 1 ->
  0 <= 1 + 2 * x * y * z - x * x - y * y - z * z ->
  acos z <= acos x + acos y.
Proof.
  intros x y z Hx Hy Hz G.
  assert (Bx := acos_bound x). assert (By := acos_bound y). assert (Bz := acos_bound z).
  destruct (Rle_dec PI (acos x + acos y)); [lra|].
  destruct (Rle_dec (acos z) (acos x + acos y)) as [|N]; auto. exfalso.
  assert (C : cos (acos z) < cos (acos x + acos y)) by (apply cos_decreasing_1; lra).
  rewrite cos_plus in C. rewrite !cos_acos, !sin_acos in C by auto.
  set (s := sqrt (1 - x²)) in *. set (t := sqrt (1 - y²)) in *.
  assert (S2 : s * s = 1 - x * x). { unfold s. rewrite sqrt_sqrt; unfold Rsqr; nra. }
  assert (T2 : t * t = 1 - y * y). { unfold t. rewrite sqrt_sqrt; unfold Rsqr; nra. }
  assert (0 <= s) by apply sqrt_pos. assert (0 <= t) by apply sqrt_pos.
  assert (ST : 0 <= s * t) by (apply Rmult_le_pos; auto).
  assert (Q : (s * t) * (s * t) = (1 - x * x) * (1 - y * y)).
  { replace ((s * t) * (s * t)) with ((s * s) * (t * t)) by ring. rewrite S2, T2. auto. }
  nra.
Qed.

Lemma hav_triangle : forall erad lon1 lat1 lon2 lat2 lon3 lat3, 0 <= erad ->
  @haversine1 ROps false erad lon1 lat1 lon3 lat3
  <= @haversine1 ROps false erad lon1 lat1 lon2 lat2 + @haversine1 ROps false erad lon2 lat2 lon3 lat3.
Proof.
  intros. rewrite !C28_formula. rewrite <- Rmult_plus_distr_l. apply Rmult_le_compat_l; auto.
  set (d := PI / 180).
  assert (U : forall a b, cos (d*a) * cos (d*b) * (cos (d*a) * cos (d*b)) +
     cos (d*a) * sin (d*b) * (cos (d*a) * sin (d*b)) + sin (d*a) * sin (d*a) = 1).
  { intros a b. assert (H1 := sin2_cos2 (d*a)). assert (H2 := sin2_cos2 (d*b)). unfold Rsqr in *.
    replace (cos (d*a) * cos (d*b) * (cos (d*a) * cos (d*b)) + cos (d*a) * sin (d*b) * (cos (d*a) * sin (d*b)))
      with (cos (d*a) * cos (d*a) * (sin (d*b) * sin (d*b) + cos (d*b) * cos (d*b))) by ring.
    rewrite H2. lra. }
  assert (D : forall l1 l2 m1 m2, sin (d * l1) * sin (d * l2) + cos (d * l1) * cos (d * l2) * cos (d * (m1 - m2))
    = (cos (d*l1) * cos (d*m1)) * (cos (d*l2) * cos (d*m2)) + (cos (d*l1) * sin (d*m1)) * (cos (d*l2) * sin (d*m2))
      + sin (d*l1) * sin (d*l2)).
  { intros. replace (d * (m1 - m2)) with (d * m1 - d * m2) by ring. rewrite cos_minus. ring. }
  apply acos_triangle.
  - apply law_of_cosines_bound, COS_bound.
  - apply law_of_cosines_bound, COS_bound.
  - apply law_of_cosines_bound, COS_bound.
  - rewrite !D.
    assert (G := gram (cos (d*lat1) * cos (d*lon1)) (cos (d*lat1) * sin (d*lon1)) (sin (d*lat1))
      (cos (d*lat2) * cos (d*lon2)) (cos (d*lat2) * sin (d*lon2)) (sin (d*lat2))
      (cos (d*lat3) * cos (d*lon3)) (cos (d*lat3) * sin (d*lon3)) (sin (d*lat3))).
    cbv zeta in G. rewrite !U in G.
    match type of G with ?a * ?a = _ => assert (0 <= a * a) by (apply Rle_0_sqr) end.
    lra.
Qed.

(** ** C27 *)

Ltac days_calc :=
  repeat match goal with |- context [days_before_nat ?k] =>
    let v := eval vm_compute in (days_before_nat k) in change (days_before_nat k) with v end.

Lemma months : forall m, (1 <= m <= 12)%Z ->
  (m = 1 \/ m = 2 \/ m = 3 \/ m = 4 \/ m = 5 \/ m = 6 \/ m = 7 \/ m = 8 \/ m = 9
    \/ m = 10 \/ m = 11 \/ m = 12)%Z.
Proof. intros. lia. Qed.

Lemma days_before_bound : forall m, (1 <= m <= 12)%Z ->
  (0 <= days_before_nat (Z.to_nat (m - 1)) <= 334)%Z.
Proof.
  intros m H. apply months in H.
  repeat (destruct H as [->|H]; [days_calc; lia|]). subst. days_calc. lia.
Qed.

Lemma days_before_mono : forall y m m', (1 <= m)%Z -> (m < m')%Z -> (m' <= 12)%Z ->
  (days_before_nat (Z.to_nat (m - 1)) + days_in_month y m
   <= days_before_nat (Z.to_nat (m' - 1)) + (if leap y then 1 else 0))%Z /\
  (m <> 2%Z -> (days_before_nat (Z.to_nat (m - 1)) + days_in_month y m
   <= days_before_nat (Z.to_nat (m' - 1)))%Z).
Proof.
  intros y m m' H1 H2 H3.
  assert (Hm := months m ltac:(lia)). assert (Hm' := months m' ltac:(lia)).
  repeat (destruct Hm as [Hm|Hm]);
  repeat (destruct Hm' as [Hm'|Hm']); subst; try lia;
  cbn [days_in_month]; days_calc; destruct (leap y); lia.
Qed.

Lemma C27_range : forall y m d, (1 <= m <= 12)%Z -> (1 <= d <= 31)%Z ->
  exists x, @decimal_year1 ROps (IZR y) (IZR m) (IZR d) = Ok x /\ IZR y <= x < IZR y + 1.
Proof.
  intros y m d Hm Hd. rewrite decimal_year_value by auto. eexists. split; [reflexivity|].
  assert (B := days_before_bound m Hm).
  destruct B as [B1 B2]. apply IZR_le in B1. apply IZR_le in B2.
  destruct Hd as [D1 D2]. apply IZR_le in D1. apply IZR_le in D2. lra.
Qed.

Lemma C27_order : forall y m d y' m' d' x x',
  valid_date y m d -> valid_date y' m' d' -> date_lt y m d y' m' d' ->
  @decimal_year1 ROps (IZR y) (IZR m) (IZR d) = Ok x ->
  @decimal_year1 ROps (IZR y') (IZR m') (IZR d') = Ok x' ->
  x <= x' /\ ((m <> 2 \/ d <> 29)%Z -> x < x').
Proof.
  intros y m d y' m' d' x x' [Vm Vd] [Vm' Vd'] L Hx Hx'.
  assert (B31 : forall a b, (days_in_month a b <= 31)%Z).
  { intros. unfold days_in_month. destruct b as [|p|p]; try lia.
    do 4 (try destruct p); try lia; destruct (leap a); lia. }
  assert (R1 := C27_range y m d Vm ltac:(specialize (B31 y m); lia)).
  assert (R2 := C27_range y' m' d' Vm' ltac:(specialize (B31 y' m'); lia)).
  destruct R1 as (x1 & E1 & R1). destruct R2 as (x2 & E2 & R2).
  assert (x1 = x) by congruence. assert (x2 = x') by congruence. subst x1 x2.
  rewrite decimal_year_value in Hx by auto. rewrite decimal_year_value in Hx' by auto.
  injection Hx; injection Hx'; intros X' X. clear Hx Hx' E1 E2.
  destruct L as [L|(-> & [L|(-> & L)])].
  - assert (y + 1 <= y')%Z by lia. apply IZR_le in H. rewrite plus_IZR in H. split; intros; lra.
  - destruct (days_before_mono y' m m' ltac:(lia) L ltac:(lia)) as [M1 M2].
    set (a := days_before_nat (Z.to_nat (m - 1))) in *.
    set (b := days_before_nat (Z.to_nat (m' - 1))) in *.
    assert (Q : (a + d <= b + d')%Z /\ ((m <> 2 \/ d <> 29)%Z -> (a + d < b + d')%Z)).
    { destruct (Z.eq_dec m 2).
      - subst m. cbn [days_in_month] in *. destruct (leap y'); split; intros; lia.
      - specialize (M2 n). split; intros; lia. }
    destruct Q as [Q1 Q2]. split.
    + apply IZR_le in Q1. rewrite !plus_IZR in Q1. lra.
    + intros G. specialize (Q2 G). apply IZR_lt in Q2. rewrite !plus_IZR in Q2. lra.
  - apply IZR_lt in L. split; intros; lra.
Qed.

(** Feb 29 and Mar 1 of a leap year get the same decimal year. *)
Lemma C27_tie : forall y,
  @decimal_year1 ROps (IZR y) 2 29 = @decimal_year1 ROps (IZR y) 3 1.
Proof.
  intros. rewrite (decimal_year_value _ 2), (decimal_year_value _ 3) by lia.
  days_calc. f_equal. lra.
Qed.

(** ** C29 *)

Lemma leap_shift : forall y k, leap (y + 400 * k) = leap y.
Proof.
  intros. unfold leap.
  replace (y + 400 * k)%Z with (y + (100 * k) * 4)%Z at 1 by ring. rewrite Z.mod_add by lia.
  replace (y + 400 * k)%Z with (y + (4 * k) * 100)%Z at 1 by ring. rewrite Z.mod_add by lia.
  replace (y + 400 * k)%Z with (y + k * 400)%Z by ring. rewrite Z.mod_add by lia. auto.
Qed.

Lemma ordinal_shift : forall y m d k,
  ordinal (y + 400 * k) m d = (ordinal y m d + 146097 * k)%Z.
Proof.
  intros. unfold ordinal. rewrite leap_shift.
  replace (y + 400 * k - 1)%Z with (y - 1 + (100 * k) * 4)%Z at 2 by ring.
  replace (y + 400 * k - 1)%Z with (y - 1 + (4 * k) * 100)%Z at 2 by ring.
  replace (y + 400 * k - 1)%Z with (y - 1 + k * 400)%Z at 2 by ring.
  rewrite !Z.div_add by lia. ring.
Qed.

Lemma ordinal_next : forall y m d, valid_date y m d ->
  let '(y', m', d') := next_day y m d in
  valid_date y' m' d' /\ ordinal y' m' d' = (ordinal y m d + 1)%Z.
Proof.
  intros y m d [Hm Hd]. unfold next_day.
  destruct (Z.ltb_spec d (days_in_month y m)).
  - split. split; auto. lia. unfold ordinal. ring.
  - assert (d = days_in_month y m) by lia. subst d. clear H Hd.
    destruct (Z.ltb_spec m 12).
    + assert (Hm' := months m Hm).
      split. { split. lia. split. lia. 
        repeat (destruct Hm' as [Hm'|Hm']); subst; try lia; cbn; destruct (leap y); lia. }
      unfold ordinal.
      repeat (destruct Hm' as [Hm'|Hm']); subst; try lia; cbn [days_in_month]; days_calc; destruct (leap y); cbn; lia.
    + assert (m = 12%Z) by lia. subst m. split. { split. lia. cbn. lia. }
      unfold ordinal. change (days_before_nat (Z.to_nat (12 - 1))) with 334%Z.
      change (days_before_nat (Z.to_nat (1 - 1))) with 0%Z. cbn [days_in_month].
      change (2 <? 12)%Z with true. change (2 <? 1)%Z with false. rewrite andb_true_r, andb_false_r.
      unfold leap.
      destruct (Z.eqb_spec (y mod 4) 0), (Z.eqb_spec (y mod 100) 0), (Z.eqb_spec (y mod 400) 0);
        cbn [negb orb andb]; Z.div_mod_to_equations; lia.
Qed.

Definition jd_int (y m d : Z) : Z :=
  (367 * y - (7 * (y + (m + 9) / 12)) / 4 - (3 * ((7 * y + (m - 9)) / 700 + 1)) / 4
   + (275 * m) / 9 + d + 1721028)%Z.

Lemma jd_int_shift : forall y m d k, jd_int (y + 400 * k) m d = (jd_int y m d + 146097 * k)%Z.
Proof.
  intros. unfold jd_int.
  replace (7 * (y + 400 * k + (m + 9) / 12))%Z with (7 * (y + (m + 9) / 12) + (700 * k) * 4)%Z by ring.
  replace (7 * (y + 400 * k) + (m - 9))%Z with (7 * y + (m - 9) + (4 * k) * 700)%Z by ring.
  rewrite !Z.div_add by lia.
  replace (3 * ((7 * y + (m - 9)) / 700 + 4 * k + 1))%Z
    with (3 * ((7 * y + (m - 9)) / 700 + 1) + (3 * k) * 4)%Z by ring.
  rewrite !Z.div_add by lia. ring.
Qed.

Lemma jd_off_shift : forall y m k, jd_off (y + 400 * k) m = jd_off y m.
Proof.
  intros. unfold jd_off.
  assert ((y + 400 * k) mod 100 = y mod 100)%Z as ->.
  { replace (y + 400 * k)%Z with (y + (4 * k) * 100)%Z by ring. apply Z.mod_add. lia. }
  assert ((y + 400 * k) mod 400 = y mod 400)%Z as ->.
  { replace (y + 400 * k)%Z with (y + k * 400)%Z by ring. apply Z.mod_add. lia. }
  auto.
Qed.

Definition jd_check (y m : Z) : bool :=
  (jd_int y m 0 =? ordinal y m 0 + 1721424 + jd_off y m)%Z.

Lemma jd_check_all :
  forallb (fun yn => forallb (fun mn => jd_check (Z.of_nat yn) (Z.of_nat mn)) (seq 1 12)) (seq 0 400) = true.
Proof. vm_compute. reflexivity. Qed.

Lemma jd_int_ordinal : forall y m d, (1 <= m <= 12)%Z ->
  jd_int y m d = (ordinal y m d + 1721424 + jd_off y m)%Z.
Proof.
  intros y m d Hm.
  assert (E : forall a b c, jd_int a b c = (jd_int a b 0 + c)%Z) by (intros; unfold jd_int; ring).
  assert (E' : forall a b c, ordinal a b c = (ordinal a b 0 + c)%Z) by (intros; unfold ordinal; ring).
  rewrite E, E'.
  assert (D := Z.div_mod y 400 ltac:(lia)). assert (B := Z.mod_pos_bound y 400 ltac:(lia)).
  replace y with (y mod 400 + 400 * (y / 400))%Z by lia.
  rewrite jd_int_shift, ordinal_shift, jd_off_shift.
  assert (C := jd_check_all). rewrite forallb_forall in C.
  specialize (C (Z.to_nat (y mod 400))). rewrite forallb_forall in C.
  assert (C1 : jd_check (Z.of_nat (Z.to_nat (y mod 400))) (Z.of_nat (Z.to_nat m)) = true).
  { apply C; apply in_seq; lia. }
  rewrite !Z2Nat.id in C1 by lia. unfold jd_check in C1. apply Z.eqb_eq in C1. lia.
Qed.

Lemma floor_div : forall a b, (0 < b)%Z -> Rfloor (IZR a / IZR b) = (a / b)%Z.
Proof.
  intros a b H. apply Rfloor_unique.
  assert (D := Z.div_mod a b ltac:(lia)). assert (B := Z.mod_pos_bound a b H).
  apply IZR_lt in H. destruct B as [B1 B2]. apply IZR_le in B1. apply IZR_lt in B2.
  assert (DR : IZR a = IZR b * IZR (a / b) + IZR (a mod b)) by (rewrite <- mult_IZR, <- plus_IZR; f_equal; auto).
  split.
  - apply Rmult_le_reg_r with (IZR b); auto. unfold Rdiv. rewrite Rmult_assoc, Rinv_l by lra. lra.
  - apply Rmult_lt_reg_r with (IZR b); auto. unfold Rdiv. rewrite Rmult_assoc, Rinv_l by lra. lra.
Qed.

Lemma greg2julian_int : forall y m d h mi s,
  @greg2julian ROps (IZR y) (IZR m) (IZR d) h mi s
  = IZR (jd_int y m d) + 1/2 + (h + mi / 60 + s / 3600) / 24.
Proof.
  intros. unfold greg2julian, lit. rops.
  replace ((IZR m + 9) / 12) with (IZR (m + 9) / IZR 12) by (rewrite plus_IZR; auto).
  rewrite floor_div by lia.
  replace (7 * (IZR y + IZR ((m + 9) / 12)) / 4) with (IZR (7 * (y + (m + 9) / 12)) / IZR 4)
    by (rewrite mult_IZR, plus_IZR; auto).
  rewrite floor_div by lia.
  replace ((IZR y + (IZR m - 9) / 7) / 100) with (IZR (7 * y + (m - 9)) / IZR 700)
    by (rewrite plus_IZR, mult_IZR, minus_IZR; field).
  rewrite floor_div by lia.
  replace (3 * (IZR ((7 * y + (m - 9)) / 700) + 1) / 4)
    with (IZR (3 * ((7 * y + (m - 9)) / 700 + 1)) / IZR 4) by (rewrite mult_IZR, plus_IZR; auto).
  rewrite floor_div by lia.
  replace (275 * IZR m / 9) with (IZR (275 * m) / IZR 9) by (rewrite mult_IZR; auto).
  rewrite floor_div by lia.
  unfold jd_int. rewrite !plus_IZR, !minus_IZR, !mult_IZR. lra.
Qed.

Lemma C29_exact_proof : forall y m d h mi s, (1 <= m <= 12)%Z ->
  @greg2julian ROps (IZR y) (IZR m) (IZR d) h mi s
  = IZR (ordinal y m d) + 17214245/10 + IZR (jd_off y m) + (h + mi / 60 + s / 3600) / 24.
Proof.
  intros. rewrite greg2julian_int, jd_int_ordinal by auto. rewrite !plus_IZR. lra.
Qed.

(** 28 February 1900 is followed by 1 March 1900, two numbers later. *)
Lemma C29_refuted_proof : exists y m d, valid_date y m d /\
  let '(y', m', d') := next_day y m d in
  @greg2julian ROps (IZR y') (IZR m') (IZR d') 0 0 0
  = @greg2julian ROps (IZR y) (IZR m) (IZR d) 0 0 0 + 2.
Proof.
  exists 1900%Z, 2%Z, 28%Z. split. { split; cbn; lia. }
  change (next_day 1900 2 28) with (1900, 3, 1)%Z. cbv iota beta.
  rewrite !C29_exact_proof by lia.
  repeat match goal with
    | |- context [ordinal ?a ?b ?c] =>
      let v := eval vm_compute in (ordinal a b c) in change (ordinal a b c) with v
    | |- context [jd_off ?a ?b] =>
      let v := eval vm_compute in (jd_off a b) in change (jd_off a b) with v
    end. lra.
Qed.

Lemma C29_partial_proof : forall y m d h mi s, valid_date y m d ->
  let '(y', m', d') := next_day y m d in
  jd_off y m = jd_off y' m' ->
  @greg2julian ROps (IZR y') (IZR m') (IZR d') h mi s
  = @greg2julian ROps (IZR y) (IZR m) (IZR d) h mi s + 1.
Proof.
  intros y m d h mi s V. assert (N := ordinal_next y m d V).
  destruct (next_day y m d) as [[y' m'] d']. destruct N as [[V1 _] N]. destruct V as [V2 _].
  intros E. rewrite !C29_exact_proof by auto. rewrite N, plus_IZR, E. lra.
Qed.

(** ** Whole catalogues *)

Lemma days_in_month_31 : forall y m, (days_in_month y m <= 31)%Z.
Proof.
  intros y m. unfold days_in_month. destruct (leap y); destruct m as [|p|p]; try lia;
    repeat (destruct p as [p|p|]; try lia).
Qed.

Lemma C27_catalogue_proof : forall cat : list (event ROps),
  (forall e, In e cat -> exists y m d, valid_date y m d /\
     ev_year e = IZR y /\ ev_month e = IZR m /\ ev_day e = IZR d) ->
  exists years, decimal_year cat = Ok years /\ length years = length cat /\
    forall k e x y m d, nth_error cat k = Some e -> nth_error years k = Some x ->
      ev_year e = IZR y -> ev_month e = IZR m -> ev_day e = IZR d -> valid_date y m d ->
      IZR y <= x < IZR y + 1 /\
      forall k' e' x' y' m' d', nth_error cat k' = Some e' -> nth_error years k' = Some x' ->
        ev_year e' = IZR y' -> ev_month e' = IZR m' -> ev_day e' = IZR d' -> valid_date y' m' d' ->
        date_lt y m d y' m' d' -> x <= x' /\ ((m <> 2 \/ d <> 29)%Z -> x < x').
Proof.
  intros cat H. unfold decimal_year.
  destruct (mapM_ok _ _ (fun e : event ROps => decimal_year1 (ev_year e) (ev_month e) (ev_day e)) cat) as [years Y].
  { intros e I. destruct (H e I) as (y & m & d & V & -> & -> & ->).
    assert (R := V). destruct R as [R1 R2].
    destruct (C27_range y m d) as (x & E & _); [exact R1| |eauto].
    assert (D := days_in_month_31 y m). lia. }
  exists years. split; auto. split. eapply mapM_length; eauto.
  intros k e x y m d E X Ey Em Ed V.
  destruct (mapM_nth _ _ _ _ _ _ _ Y E) as (x0 & X0 & F). rewrite X in X0. injection X0 as <-. rewrite Ey, Em, Ed in F.
  split.
  - assert (R := V). destruct R as [R1 R2].
    destruct (C27_range y m d) as (x1 & E1 & B); [exact R1| |].
    assert (D := days_in_month_31 y m). lia.
    rewrite E1 in F. injection F as <-. exact B.
  - intros k' e' x' y' m' d' E' X' Ey' Em' Ed' V' L.
    destruct (mapM_nth _ _ _ _ _ _ _ Y E') as (x0 & X0 & F'). rewrite X' in X0. injection X0 as <-. rewrite Ey', Em', Ed' in F'.
    exact (C27_order _ _ _ _ _ _ _ _ V V' L F F').
Qed.

Lemma C28_default_proof : forall (rows : list (event ROps)) (e : event ROps),
  haversine_col rows e = map (fun r : event ROps => let k := PI / 180 in
    6371227 / 1000 * acos (sin (k * ev_lat r) * sin (k * ev_lat e)
      + cos (k * ev_lat r) * cos (k * ev_lat e) * cos (k * (ev_lon r - ev_lon e)))) rows.
Proof.
  intros. unfold haversine_col. apply map_ext. intros r. unfold haversine. cbn [map fst snd].
  unfold earth_rad, lit. exact (C28_formula _ _ _ _ _).
Qed.
