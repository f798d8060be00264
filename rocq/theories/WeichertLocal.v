(** Existence, uniqueness and local convergence of the Weichert estimate (C42). *)
From Coq Require Import ZArith Arith Bool List Lia Reals Lra.
From Verif Require Import Base Ops BaseFacts RFacts SteppSpec Recurrence RecurrenceSpec SteppProofs
  RecurrenceProofs WeichertProofs WeichertNewton.
Import ListNotations.
Local Open Scope R_scope.

Lemma wmu_upper : forall bins beta t0 lo hi, durations_positive bins -> In (t0, lo) bins ->
  mags_within lo hi bins -> 0 < beta ->
  wmu bins beta <= lo + Rsum (map fst bins) / (beta * t0).
Proof.
  intros bins beta t0 lo hi P I B HB.
  assert (NE : bins <> []) by (destruct bins; [destruct I|congruence]).
  assert (W := wmom0_pos bins beta P NE).
  assert (T0 : 0 < t0) by apply (P _ I).
  assert (e0 := exp_pos (- beta * lo)).
  (* numerator *)
  assert (A : wmom 1 bins beta - lo * wmom 0 bins beta <= Rsum (map fst bins) * exp (- beta * lo) / beta).
  { clear I NE W T0. unfold wmom. induction bins as [|b l IH]; cbn [map Rsum]; [lra|].
    assert (0 < fst b) by (apply P; simpl; auto).
    assert (Hb : lo <= snd b <= hi) by (apply B; simpl; auto).
    assert (IH' := IH (fun z Iz => P z (or_intror Iz)) (fun z Iz => B z (or_intror Iz))). clear IH.
    assert (X : (snd b - lo) * exp (- beta * snd b) <= exp (- beta * lo) / beta).
    { replace (- beta * snd b) with (- beta * lo + - (beta * (snd b - lo))) by ring.
      rewrite exp_plus, exp_Ropp.
      set (x := beta * (snd b - lo)).
      assert (0 <= x) by (unfold x; nra).
      assert (x < exp x) by (assert (Y := exp_ineq1_le x); lra).
      assert (ex := exp_pos x).
      assert (Y : (snd b - lo) = x / beta) by (unfold x; field; lra). rewrite Y.
      assert (Z : x / exp x <= 1).
      { apply (Rmult_le_reg_r (exp x)); auto. unfold Rdiv. rewrite Rmult_assoc, Rinv_l by lra. lra. }
      replace (x / beta * (exp (- beta * lo) * / exp x)) with (exp (- beta * lo) / beta * (x / exp x)) by (field; lra).
      rewrite <- (Rmult_1_r (exp (- beta * lo) / beta)) at 2. apply Rmult_le_compat_l; auto.
      left. apply Rdiv_lt_0_compat; auto. }
    assert (X2 : fst b * ((snd b - lo) * exp (- beta * snd b)) <= fst b * (exp (- beta * lo) / beta)) by (apply Rmult_le_compat_l; lra).
    replace ((fst b + Rsum (map fst l)) * exp (- beta * lo) / beta)
      with (fst b * (exp (- beta * lo) / beta) + Rsum (map fst l) * exp (- beta * lo) / beta) by (field; lra).
    simpl pow in *. lra. }
  (* denominator *)
  assert (D : t0 * exp (- beta * lo) <= wmom 0 bins beta).
  { clear A NE W B. unfold wmom. induction bins as [|b l IH]; [destruct I|]. cbn [map Rsum].
    assert (PB : 0 < fst b) by (apply P; simpl; auto).
    assert (eb := exp_pos (- beta * snd b)).
    assert (0 <= Rsum (map (fun p => fst p * snd p ^ 0 * exp (- beta * snd p)) l)).
    { apply Rsum_nonneg. intros x Hx. apply in_map_iff in Hx. destruct Hx as [z [<- Iz]].
      assert (0 < fst z) by (apply P; simpl; auto). assert (ez := exp_pos (- beta * snd z)). simpl.
      rewrite Rmult_1_r. apply Rmult_le_pos; lra. }
    destruct I as [->|I].
    - cbn [fst snd pow] in *. lra.
    - assert (IH' := IH (fun z Iz => P z (or_intror Iz)) I). simpl pow in *.
      assert (0 <= fst b * 1 * exp (- beta * snd b)) by (rewrite Rmult_1_r; apply Rmult_le_pos; lra). lra. }
  assert (TT : 0 <= Rsum (map fst bins)).
  { apply Rsum_nonneg. intros x Hx. apply in_map_iff in Hx. destruct Hx as [z [<- Iz]]. left. auto. }
  unfold wmu. apply (Rmult_le_reg_r (wmom 0 bins beta)); auto.
  unfold Rdiv at 1. rewrite Rmult_assoc, Rinv_l, Rmult_1_r by lra.
  assert (Y : Rsum (map fst bins) * exp (- beta * lo) / beta <= Rsum (map fst bins) / (beta * t0) * wmom 0 bins beta).
  { replace (Rsum (map fst bins) * exp (- beta * lo) / beta)
      with (Rsum (map fst bins) / (beta * t0) * (t0 * exp (- beta * lo))) by (field; lra).
    apply Rmult_le_compat_l; auto. apply Rmult_le_pos; auto. left. apply Rinv_0_lt_compat. nra. }
  lra.
Qed.

Definition flip (bins : list (R * R)) : list (R * R) := map (fun p => (fst p, - snd p)) bins.

Lemma wmu_flip : forall bins beta, durations_positive bins -> bins <> [] ->
  wmu (flip bins) beta = - wmu bins (- beta).
Proof.
  intros bins beta P NE. assert (W := wmom0_pos bins (- beta) P NE). unfold wmu.
  assert (E0 : wmom 0 (flip bins) beta = wmom 0 bins (- beta)).
  { unfold wmom, flip. rewrite map_map. f_equal. apply map_ext. intros p. cbn [fst snd pow].
    replace (- beta * - snd p) with (- - beta * snd p) by ring. ring. }
  assert (E1 : wmom 1 (flip bins) beta = - wmom 1 bins (- beta)).
  { unfold wmom, flip. rewrite map_map. clear. induction bins; cbn [map Rsum]; [lra|]. rewrite IHbins.
    cbn [fst snd pow]. replace (- beta * - snd a) with (- - beta * snd a) by ring. ring. }
  rewrite E0, E1. field. lra.
Qed.

Lemma wmu_lower : forall bins beta t0 lo hi, durations_positive bins -> In (t0, hi) bins ->
  mags_within lo hi bins -> 0 < beta ->
  hi - Rsum (map fst bins) / (beta * t0) <= wmu bins (- beta).
Proof.
  intros bins beta t0 lo hi P I B HB.
  assert (NE : bins <> []) by (destruct bins; [destruct I|congruence]).
  assert (X := wmu_upper (flip bins) beta t0 (- hi) (- lo)).
  rewrite wmu_flip in X by auto.
  assert (E : map fst (flip bins) = map fst bins) by (unfold flip; rewrite map_map; auto).
  rewrite E in X.
  assert (Y : - wmu bins (- beta) <= - hi + Rsum (map fst bins) / (beta * t0)); [apply X|lra]; auto.
  - intros p Ip. apply in_map_iff in Ip. destruct Ip as [q [<- Iq]]. simpl. auto.
  - apply in_map_iff. exists (t0, hi). auto.
  - intros p Ip. apply in_map_iff in Ip. destruct Ip as [q [<- Iq]]. simpl. specialize (B q Iq). lra.
Qed.

Lemma dL_continuity : forall bins N S, durations_positive bins -> bins <> [] -> continuity (dL bins N S).
Proof.
  intros bins N S P NE x. apply derivable_continuous_pt. exists (d2L bins N x). apply d2L_deriv; auto.
Qed.

Lemma d2L_continuity : forall bins N, durations_positive bins -> bins <> [] -> continuity (d2L bins N).
Proof.
  intros bins N P NE x.
  assert (C : forall k y, continuity_pt (wmom k bins) y).
  { intros k y. apply derivable_continuous_pt. exists (- wmom (S k) bins y). apply wmom_deriv. }
  assert (W := wmom0_pos bins x P NE).
  assert (CM : continuity_pt (wmu bins) x).
  { apply (continuity_pt_div (wmom 1 bins) (wmom 0 bins)); auto. lra. }
  apply (continuity_pt_scal (fun b => wvar bins b) (- N)).
  apply (continuity_pt_minus (fun b => wmom 2 bins b / wmom 0 bins b) (fun b => wmu bins b * wmu bins b)).
  - apply (continuity_pt_div (wmom 2 bins) (wmom 0 bins)); auto. lra.
  - apply (continuity_pt_mult (wmu bins) (wmu bins)); auto.
Qed.

(** Mean value theorem for the derivative of the log-likelihood. *)
Lemma dL_mvt : forall bins N S a b, durations_positive bins -> bins <> [] -> a < b ->
  exists c, dL bins N S b - dL bins N S a = d2L bins N c * (b - a) /\ a < c < b.
Proof.
  intros bins N S a b P NE H.
  destruct (MVT_cor2 (dL bins N S) (d2L bins N) a b H) as [c [E L]].
  - intros c _. apply d2L_deriv; auto.
  - exists c. auto.
Qed.

Section Estimate.
Variables (bins : list (R * R)) (N S : R).
Hypothesis P : durations_positive bins.
Hypothesis TD : exists p q, In p bins /\ In q bins /\ snd p <> snd q.
Hypothesis HN : 0 < N.

Lemma bins_ne : bins <> [].
Proof. destruct TD as (p & _ & I & _). intros X. rewrite X in I. destruct I. Qed.

Lemma d2L_neg : forall beta, d2L bins N beta < 0.
Proof. intros beta. assert (V := wvar_pos bins beta P TD). unfold d2L. nra. Qed.

Lemma dL_decreasing : forall a b, a < b -> dL bins N S b < dL bins N S a.
Proof.
  intros a b H. destruct (dL_mvt bins N S a b P bins_ne H) as (c & E & L).
  assert (Q := d2L_neg c). nra.
Qed.

Lemma estimate_exists : forall lo hi t0 t1, In (t0, lo) bins -> In (t1, hi) bins ->
  mags_within lo hi bins -> N * lo < S < N * hi -> exists beta, dL bins N S beta = 0.
Proof.
  intros lo hi t0 t1 I0 I1 B HS.
  assert (T0 : 0 < t0) by apply (P _ I0). assert (T1 : 0 < t1) by apply (P _ I1).
  set (T := Rsum (map fst bins)).
  assert (TP : 0 < T).
  { apply Rsum_pos. intros x Hx. apply in_map_iff in Hx. destruct Hx as [z [<- Iz]]. auto.
    destruct bins; [destruct I0|discriminate]. }
  set (u := N * T / (t0 * (S - N * lo)) + N * T / (t1 * (N * hi - S)) + 1).
  assert (U1 : 0 < N * T / (t0 * (S - N * lo))).
  { apply Rdiv_lt_0_compat; apply Rmult_lt_0_compat; lra. }
  assert (U2 : 0 < N * T / (t1 * (N * hi - S))).
  { apply Rdiv_lt_0_compat; apply Rmult_lt_0_compat; lra. }
  assert (U : 0 < u) by (unfold u; lra).
  assert (A := wmu_upper bins u t0 lo hi P I0 B U).
  assert (C := wmu_lower bins u t1 lo hi P I1 B U).
  fold T in A, C.
  assert (A1 : dL bins N S u < 0).
  { unfold dL. assert (T / (u * t0) < S / N - lo).
    { apply (Rmult_lt_reg_r (u * t0)). nra.
      replace (T / (u * t0) * (u * t0)) with T by (field; lra).
      assert (N * T / (t0 * (S - N * lo)) < u) by (unfold u; lra).
      assert (X : N * T / (t0 * (S - N * lo)) * (t0 * (S - N * lo)) < u * (t0 * (S - N * lo))).
      { apply Rmult_lt_compat_r; auto. apply Rmult_lt_0_compat; lra. }
      replace (N * T / (t0 * (S - N * lo)) * (t0 * (S - N * lo))) with (N * T) in X by (field; lra).
      replace ((S / N - lo) * (u * t0)) with (u * (t0 * (S - N * lo)) / N) by (field; lra).
      apply (Rmult_lt_reg_l N); auto. replace (N * (u * (t0 * (S - N * lo)) / N)) with (u * (t0 * (S - N * lo))) by (field; lra). auto. }
    assert (N * wmu bins u < N * (S / N)) by (apply Rmult_lt_compat_l; lra).
    replace (N * (S / N)) with S in H0 by (field; lra). lra. }
  assert (A2 : 0 < dL bins N S (- u)).
  { unfold dL. assert (T / (u * t1) < hi - S / N).
    { apply (Rmult_lt_reg_r (u * t1)). nra.
      replace (T / (u * t1) * (u * t1)) with T by (field; lra).
      assert (N * T / (t1 * (N * hi - S)) < u) by (unfold u; lra).
      assert (X : N * T / (t1 * (N * hi - S)) * (t1 * (N * hi - S)) < u * (t1 * (N * hi - S))).
      { apply Rmult_lt_compat_r; auto. apply Rmult_lt_0_compat; lra. }
      replace (N * T / (t1 * (N * hi - S)) * (t1 * (N * hi - S))) with (N * T) in X by (field; lra).
      replace ((hi - S / N) * (u * t1)) with (u * (t1 * (N * hi - S)) / N) by (field; lra).
      apply (Rmult_lt_reg_l N); auto. replace (N * (u * (t1 * (N * hi - S)) / N)) with (u * (t1 * (N * hi - S))) by (field; lra). auto. }
    assert (N * (S / N) < N * wmu bins (- u)) by (apply Rmult_lt_compat_l; lra).
    replace (N * (S / N)) with S in H0 by (field; lra). lra. }
  destruct (IVT (fun b => - dL bins N S b) (- u) u) as [b [_ E]].
  - apply (continuity_opp (dL bins N S)). apply dL_continuity. exact P. exact bins_ne.
  - lra.
  - lra.
  - lra.
  - exists b. lra.
Qed.

Lemma estimate_unique : forall a b, dL bins N S a = 0 -> dL bins N S b = 0 -> a = b.
Proof.
  intros a b Ha Hb. destruct (Rtotal_order a b) as [H|[H|H]]; auto; exfalso.
  - apply dL_decreasing in H. lra.
  - apply dL_decreasing in H. lra.
Qed.

Lemma estimate_max : forall b, dL bins N S b = 0 -> forall x, x <> b ->
  weichert_loglik bins N S x < weichert_loglik bins N S b.
Proof.
  intros b Hb x Hx.
  assert (D : forall c, derivable_pt_lim (weichert_loglik bins N S) c (dL bins N S c)).
  { intros c. apply dL_deriv. exact P. exact bins_ne. }
  destruct (Rtotal_order x b) as [H|[H|H]]; [|congruence|].
  - destruct (MVT_cor2 (weichert_loglik bins N S) (dL bins N S) x b H) as [c [E L]]; [auto|].
    assert (X := dL_decreasing c b (proj2 L)). nra.
  - destruct (MVT_cor2 (weichert_loglik bins N S) (dL bins N S) b x H) as [c [E L]]; [auto|].
    assert (X := dL_decreasing b c (proj1 L)). nra.
Qed.

(** Within delta of the estimate a Newton step at least halves the error. *)
Lemma newton_contracts : forall bs, dL bins N S bs = 0 ->
  exists delta, 0 < delta /\ forall b, Rabs (b - bs) < delta ->
    Rabs (newton bins N S b - bs) <= Rabs (b - bs) / 2.
Proof.
  intros bs H0.
  assert (C := d2L_continuity bins N P bins_ne bs).
  assert (Q := d2L_neg bs).
  destruct (C (- d2L bins N bs / 5)) as [delta [D1 D2]]; [lra|].
  exists delta. split; auto.
  assert (NEAR : forall c, Rabs (c - bs) < delta -> Rabs (d2L bins N c - d2L bins N bs) < - d2L bins N bs / 5).
  { intros c Hc. destruct (Req_dec c bs) as [->|Hne].
    - replace (d2L bins N bs - d2L bins N bs) with 0 by ring. rewrite Rabs_R0. lra.
    - apply (D2 c). split; auto. split. exact I. auto. }
  intros b Hb. unfold newton.
  assert (Nb := NEAR b Hb). assert (Qb := d2L_neg b).
  destruct (Rtotal_order b bs) as [H|[->|H]].
  - destruct (dL_mvt bins N S b bs P bins_ne H) as (c & E & L).
    assert (Nc : Rabs (d2L bins N c - d2L bins N bs) < - d2L bins N bs / 5).
    { apply NEAR. rewrite Rabs_left by lra. rewrite Rabs_left in Hb by lra. lra. }
    rewrite H0 in E.
    assert (EQ : b - dL bins N S b / d2L bins N b - bs = (b - bs) * ((d2L bins N b - d2L bins N c) / d2L bins N b)).
    { replace (dL bins N S b) with (d2L bins N c * (b - bs)) by lra. field. lra. }
    rewrite EQ, Rabs_mult. unfold Rdiv at 2. apply Rmult_le_compat_l. apply Rabs_pos.
    unfold Rdiv. rewrite Rabs_mult, Rabs_inv, (Rabs_left (d2L bins N b)) by lra.
    apply (Rmult_le_reg_r (- d2L bins N b)); [lra|]. rewrite Rmult_assoc, Rinv_l by lra.
    apply Rabs_def2 in Nb, Nc. rewrite Rmult_1_r. apply Rabs_le. lra.
  - rewrite H0. replace (bs - 0 / d2L bins N bs - bs) with 0 by (field; lra).
    replace (bs - bs) with 0 by ring. rewrite Rabs_R0. lra.
  - destruct (dL_mvt bins N S bs b P bins_ne H) as (c & E & L).
    assert (Nc : Rabs (d2L bins N c - d2L bins N bs) < - d2L bins N bs / 5).
    { apply NEAR. rewrite Rabs_right by lra. rewrite Rabs_right in Hb by lra. lra. }
    rewrite H0 in E.
    assert (EQ : b - dL bins N S b / d2L bins N b - bs = (b - bs) * ((d2L bins N b - d2L bins N c) / d2L bins N b)).
    { replace (dL bins N S b) with (d2L bins N c * (b - bs)) by lra. field. lra. }
    rewrite EQ, Rabs_mult. unfold Rdiv at 2. apply Rmult_le_compat_l. apply Rabs_pos.
    unfold Rdiv. rewrite Rabs_mult, Rabs_inv, (Rabs_left (d2L bins N b)) by lra.
    apply (Rmult_le_reg_r (- d2L bins N b)); [lra|]. rewrite Rmult_assoc, Rinv_l by lra.
    apply Rabs_def2 in Nb, Nc. rewrite Rmult_1_r. apply Rabs_le. lra.
Qed.

End Estimate.

Lemma loop_converges : forall n (tper fmag nobs : list R) m0 mrate itstab bs delta b,
  length tper = length fmag -> durations_positive (combine tper fmag) -> combine tper fmag <> [] ->
  let nw := newton (combine tper fmag) (Rsum nobs) (Rsum (map2 Rmult nobs fmag)) in
  0 < itstab -> (forall x, Rabs (x - bs) < delta -> Rabs (nw x - bs) <= Rabs (x - bs) / 2) ->
  Rabs (b - bs) < delta -> Rabs (b - bs) <= itstab * 2 ^ n / 2 ->
  exists b0, @weichert_loop ROps (S n) tper fmag nobs m0 mrate b itstab
      = Ok (weichert_result tper fmag nobs m0 mrate b0) /\ Rabs (nw b0 - bs) <= itstab.
Proof.
  induction n; intros tper fmag nobs m0 mrate itstab bs delta b L P NE nw HT HC HD HB.
  - assert (E := loop_eval 0 tper fmag nobs m0 mrate b itstab L P NE). cbv zeta in E. fold nw in E.
    specialize (HC b HD). simpl in HB.
    assert (T := Rabs_triang (nw b - bs) (bs - b)).
    replace (nw b - bs + (bs - b)) with (nw b - b) in T by ring.
    rewrite (Rabs_minus_sym bs b) in T.
    assert (X : Rleb (Rabs (nw b - b)) itstab = true) by (apply Rleb_true; lra).
    rewrite X in E. exists b. split; auto. lra.
  - assert (E := loop_eval (S n) tper fmag nobs m0 mrate b itstab L P NE). cbv zeta in E. fold nw in E.
    assert (HCb := HC b HD).
    destruct (Rleb (Rabs (nw b - b)) itstab) eqn:X.
    + exists b. split; auto. apply Rleb_true in X.
      assert (T := Rabs_triang (b - nw b) (nw b - bs)).
      replace (b - nw b + (nw b - bs)) with (b - bs) in T by ring.
      rewrite (Rabs_minus_sym b (nw b)) in T. lra.
    + rewrite E. apply (IHn tper fmag nobs m0 mrate itstab bs delta (nw b)); auto.
      * assert (Y := Rabs_pos (b - bs)). fold nw. lra.
      * cbn [pow] in HB. fold nw. lra.
Qed.

(** Some power of two exceeds any number. *)
Lemma pow2_exceeds : forall x, exists n, x <= 2 ^ n.
Proof.
  intros x. destruct (archimed x) as [A _]. exists (Z.to_nat (up x)).
  assert (G : forall n, INR n <= 2 ^ n).
  { induction n; simpl pow; [simpl; lra|]. rewrite S_INR.
    assert (1 <= 2 ^ n) by (apply pow_R1_Rle; lra). lra. }
  specialize (G (Z.to_nat (up x))).
  destruct (Z_lt_le_dec (up x) 0).
  - assert (IZR (up x) < 0) by (apply IZR_lt; auto).
    assert (0 < 2 ^ Z.to_nat (up x)) by (apply pow_lt; lra). lra.
  - rewrite INR_IZR_INZ, Z2Nat.id in G by auto. lra.
Qed.

Lemma weighted_between_strict : forall (nobs fmag : list R) lo hi, length nobs = length fmag ->
  (forall n, In n nobs -> 0 <= n) -> (forall m, In m fmag -> lo <= m <= hi) ->
  (exists n m, In (n, m) (combine nobs fmag) /\ 0 < n /\ lo < m) ->
  (exists n m, In (n, m) (combine nobs fmag) /\ 0 < n /\ m < hi) ->
  Rsum nobs * lo < Rsum (map2 Rmult nobs fmag) < Rsum nobs * hi.
Proof.
  intros nobs fmag lo hi L P B (n & m & I & Hn & Hm) (n' & m' & I' & Hn' & Hm').
  assert (G : forall nobs fmag, length nobs = length fmag ->
    (forall n, In n nobs -> 0 <= n) -> (forall m, In m fmag -> lo <= m <= hi) ->
    Rsum nobs * lo <= Rsum (map2 Rmult nobs fmag) <= Rsum nobs * hi).
  { induction nobs0; intros [|f fmag0] L0 P0 B0; simpl in *; try discriminate; [lra|].
    assert (0 <= a) by auto. assert (lo <= f <= hi) by auto.
    destruct (IHnobs0 fmag0) as [X Y]; [lia|auto|auto|]. split; nra. }
  assert (G1 : forall n m nobs fmag, length nobs = length fmag ->
    (forall n, In n nobs -> 0 <= n) -> (forall m, In m fmag -> lo <= m <= hi) ->
    In (n, m) (combine nobs fmag) -> 0 < n ->
    (lo < m -> Rsum nobs * lo < Rsum (map2 Rmult nobs fmag)) /\
    (m < hi -> Rsum (map2 Rmult nobs fmag) < Rsum nobs * hi)).
  { clear n m I Hn Hm n' m' I' Hn' Hm' L P B nobs fmag. intros n m.
    induction nobs; intros [|f fmag] L0 P0 B0 I Hn; simpl in *; try discriminate; [destruct I|].
    assert (0 <= a) by auto. assert (lo <= f <= hi) by auto.
    destruct (G nobs fmag) as [X Y]; [lia|auto|auto|].
    destruct I as [I|I].
    - injection I. intros -> ->. split; intros; nra.
    - destruct (IHnobs fmag) as [X1 Y1]; [lia|auto|auto|auto|auto|].
      split; intros Z; [specialize (X1 Z)|specialize (Y1 Z)]; nra. }
  destruct (G1 n m nobs fmag L P B I Hn) as [X _]. destruct (G1 n' m' nobs fmag L P B I' Hn') as [_ Y]. auto.
Qed.

Lemma in_combine_exists : forall (tper fmag : list R) x, length tper = length fmag -> In x fmag ->
  exists t, In (t, x) (combine tper fmag).
Proof.
  induction tper; intros [|f fmag] x L I; simpl in *; try discriminate; [destruct I|].
  destruct I as [->|I]. exists a. auto. destruct (IHtper fmag x) as [t It]; [lia|auto|]. exists t. auto.
Qed.

Lemma C42_partial_proof : forall (tper fmag nobs : list R) lo hi,
  length tper = length fmag -> length nobs = length fmag -> (forall t, In t tper -> 0 < t) ->
  (forall n, In n nobs -> 0 <= n) -> is_min lo fmag -> is_max hi fmag ->
  (exists n m, In (n, m) (combine nobs fmag) /\ 0 < n /\ lo < m) ->
  (exists n m, In (n, m) (combine nobs fmag) /\ 0 < n /\ m < hi) ->
  let L := weichert_loglik (combine tper fmag) (Rsum nobs) (Rsum (map2 Rmult nobs fmag)) in
  exists best, (forall x, x <> best -> L x < L best) /\
    exists delta, 0 < delta /\
      forall beta itstab mrate, Rabs (beta - best) < delta -> 0 < itstab ->
        exists fuel b sb a sa, @weichert ROps fuel tper fmag nobs mrate beta itstab = Ok (b, sb, a, sa) /\
          Rabs (b * ln 10 - best) <= itstab.
Proof.
  intros tper fmag nobs lo hi L1 L2 TP NP [ML1 ML2] [MH1 MH2] A B L.
  set (bins := combine tper fmag) in *.
  assert (P : durations_positive bins).
  { intros [t m] I. apply in_combine_l in I. simpl. auto. }
  assert (MW : forall m, In m fmag -> lo <= m <= hi).
  { intros m I. split; [apply ML2|apply MH2]; auto. }
  assert (BT := weighted_between_strict nobs fmag lo hi L2 NP MW A B).
  assert (NNEG : 0 <= Rsum nobs) by (apply Rsum_nonneg; auto).
  assert (LH : lo < hi).
  { destruct A as (n & m & I & Hn & Hm). apply in_combine_r in I. assert (X := MW m I). lra. }
  assert (HN : 0 < Rsum nobs) by nra.
  destruct (in_combine_exists tper fmag lo L1 ML1) as [t0 I0].
  destruct (in_combine_exists tper fmag hi L1 MH1) as [t1 I1]. fold bins in I0, I1.
  assert (TD : exists p q, In p bins /\ In q bins /\ snd p <> snd q).
  { exists (t0, lo), (t1, hi). simpl. repeat split; auto. lra. }
  assert (NE : bins <> []) by (intros X; rewrite X in I0; destruct I0).
  assert (MB : mags_within lo hi bins).
  { intros [t m] I. apply in_combine_r in I. simpl. auto. }
  destruct (estimate_exists bins (Rsum nobs) (Rsum (map2 Rmult nobs fmag)) P TD HN lo hi t0 t1 I0 I1 MB BT) as [best HB].
  exists best. split.
  - apply estimate_max; auto.
  - destruct (newton_contracts bins (Rsum nobs) (Rsum (map2 Rmult nobs fmag)) P TD HN best HB) as (delta & D1 & D2).
    exists delta. split; auto. intros beta itstab mrate Hb Ht.
    destruct (pow2_exceeds (2 * Rabs (beta - best) / itstab)) as [n Hn].
    assert (HBn : Rabs (beta - best) <= itstab * 2 ^ n / 2).
    { apply (Rmult_le_compat_r itstab) in Hn; [|lra].
      replace (2 * Rabs (beta - best) / itstab * itstab) with (2 * Rabs (beta - best)) in Hn by (field; lra). lra. }
    assert (FS : exists f0 f1 rest, fmag = f0 :: f1 :: rest).
    { clear - ML1 MH1 LH. destruct fmag as [|f0 [|f1 rest]].
      destruct ML1. exfalso. destruct ML1 as [<-|[]], MH1 as [<-|[]]. lra. eauto. }
    destruct FS as (f0 & f1 & rest & EF).
    { assert (X := loop_converges n tper fmag nobs (f0 - (f1 - f0) / 2) mrate itstab best delta beta L1 P NE Ht D2 Hb HBn).
      destruct X as (b0 & X1 & X2).
      exists (S n). unfold weichert. rewrite EF. rewrite <- EF. rops.
      rewrite X1. unfold weichert_result. cbv zeta. do 4 eexists. split; [reflexivity|].
      fold bins in X2 |- *. 
      match goal with |- Rabs (?x / ln 10 * ln 10 - _) <= _ => replace (x / ln 10 * ln 10) with x by (field; assert (L10 := ln10_pos); lra) end.
      exact X2. }
Qed.
