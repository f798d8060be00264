(** Proofs for weichert (C41, C42): Newton iteration on the log-likelihood. *)
From Coq Require Import String ZArith Arith Bool List Lia Reals Lra.
From Verif Require Import Base Ops BaseFacts RFacts SteppSpec Recurrence RecurrenceSpec SteppProofs
  RecurrenceProofs WeichertProofs.
Import ListNotations.
Local Open Scope R_scope.

(** ** Moments *)

Definition durations_positive (bins : list (R * R)) : Prop := forall p, In p bins -> 0 < fst p.

Lemma wmom0_pos : forall bins beta, durations_positive bins -> bins <> [] -> 0 < wmom 0 bins beta.
Proof.
  intros bins beta P NE. unfold wmom. apply Rsum_pos.
  - intros x Hx. apply in_map_iff in Hx. destruct Hx as [p [<- Ip]]. simpl.
    rewrite Rmult_1_r. apply Rmult_lt_0_compat; auto. apply exp_pos.
  - destruct bins; simpl; congruence.
Qed.

Lemma wmom_deriv : forall k bins beta,
  derivable_pt_lim (wmom k bins) beta (- wmom (S k) bins beta).
Proof.
  intros k bins beta. induction bins as [|p bins IH].
  - unfold wmom. simpl. rewrite Ropp_0. apply derivable_pt_lim_const.
  - assert (E : forall j b, wmom j (p :: bins) b = fst p * snd p ^ j * exp (- b * snd p) + wmom j bins b) by reflexivity.
    rewrite E.
    replace (- (fst p * snd p ^ S k * exp (- beta * snd p) + wmom (S k) bins beta))
      with (fst p * snd p ^ k * (exp (- beta * snd p) * (- snd p)) + - wmom (S k) bins beta) by (simpl; ring).
    apply (derivable_pt_lim_ext (fun b => fst p * snd p ^ k * exp (- b * snd p) + wmom k bins b)).
    { intros z. rewrite E. auto. }
    apply derivable_pt_lim_plus; auto.
    apply (derivable_pt_lim_scal (fun b => exp (- b * snd p))).
    apply (derivable_pt_lim_comp (fun b => - b * snd p) exp).
    + apply (derivable_pt_lim_ext (fun b => - snd p * b)). { intros; ring. }
      assert (X := derivable_pt_lim_scal id (- snd p) beta 1 (derivable_pt_lim_id beta)).
      rewrite Rmult_1_r in X. exact X.
    + apply derivable_pt_lim_exp.
Qed.

(** First and second derivative of the log-likelihood. *)
Definition dL (bins : list (R * R)) (N S beta : R) : R := N * wmu bins beta - S.
Definition wvar (bins : list (R * R)) (beta : R) : R :=
  wmom 2 bins beta / wmom 0 bins beta - wmu bins beta * wmu bins beta.
Definition d2L (bins : list (R * R)) (N beta : R) : R := - N * wvar bins beta.

Lemma dL_deriv : forall bins N S beta, durations_positive bins -> bins <> [] ->
  derivable_pt_lim (weichert_loglik bins N S) beta (dL bins N S beta).
Proof.
  intros bins N S beta P NE. unfold weichert_loglik, dL.
  assert (W := wmom0_pos bins beta P NE).
  replace (N * wmu bins beta - S) with (- N * (/ wmom 0 bins beta * (- wmom 1 bins beta)) - 1 * S).
  2: { unfold wmu. field. lra. }
  apply derivable_pt_lim_minus.
  - apply (derivable_pt_lim_scal (fun b => ln (wmom 0 bins b))).
    apply (derivable_pt_lim_comp (wmom 0 bins) ln).
    + apply wmom_deriv.
    + apply derivable_pt_lim_ln. auto.
  - apply (derivable_pt_lim_ext (fun b => S * b)). { intros; ring. }
    assert (X := derivable_pt_lim_scal id S beta 1 (derivable_pt_lim_id beta)).
    rewrite Rmult_comm in X. exact X.
Qed.

Lemma wmu_deriv : forall bins beta, durations_positive bins -> bins <> [] ->
  derivable_pt_lim (wmu bins) beta (- wvar bins beta).
Proof.
  intros bins beta P NE. unfold wmu.
  assert (W := wmom0_pos bins beta P NE).
  replace (- wvar bins beta) with
    ((- wmom 2 bins beta * wmom 0 bins beta - - wmom 1 bins beta * wmom 1 bins beta) / Rsqr (wmom 0 bins beta)).
  2: { unfold wvar, wmu, Rsqr. field. lra. }
  apply (derivable_pt_lim_div (wmom 1 bins) (wmom 0 bins)).
  - apply wmom_deriv.
  - apply wmom_deriv.
  - lra.
Qed.

Lemma d2L_deriv : forall bins N S beta, durations_positive bins -> bins <> [] ->
  derivable_pt_lim (dL bins N S) beta (d2L bins N beta).
Proof.
  intros bins N S beta P NE. unfold dL, d2L.
  replace (- N * wvar bins beta) with (N * (- wvar bins beta) - 0) by ring.
  apply derivable_pt_lim_minus.
  - apply derivable_pt_lim_scal. apply wmu_deriv; auto.
  - apply derivable_pt_lim_const.
Qed.

(** Variance as a mean of squares. *)
Lemma wvar_sum : forall bins beta c, durations_positive bins -> bins <> [] ->
  Rsum (map (fun p => fst p * (snd p - c) * (snd p - wmu bins beta) * exp (- beta * snd p)) bins)
  = wmom 0 bins beta * wvar bins beta.
Proof.
  intros bins beta c P NE. assert (W := wmom0_pos bins beta P NE).
  assert (E : forall mu l, Rsum (map (fun p => fst p * (snd p - c) * (snd p - mu) * exp (- beta * snd p)) l)
    = wmom 2 l beta - (c + mu) * wmom 1 l beta + c * mu * wmom 0 l beta).
  { intros mu l. unfold wmom. induction l; cbn [map Rsum fold_right]; [lra|]. 
    cbn [map Rsum fold_right] in IHl. rewrite IHl. ring. }
  rewrite E. unfold wvar, wmu. field. lra.
Qed.

Lemma wvar_pos : forall bins beta, durations_positive bins ->
  (exists p q, In p bins /\ In q bins /\ snd p <> snd q) -> 0 < wvar bins beta.
Proof.
  intros bins beta P (p & q & Ip & Iq & D).
  assert (NE : bins <> []) by (destruct bins; [destruct Ip|congruence]).
  assert (W := wmom0_pos bins beta P NE).
  assert (E := wvar_sum bins beta (wmu bins beta) P NE).
  assert (0 < Rsum (map (fun p => fst p * (snd p - wmu bins beta) * (snd p - wmu bins beta) * exp (- beta * snd p)) bins)).
  { generalize (wmu bins beta). intros mu. clear E W NE.
    assert (X : exists r, In r bins /\ snd r <> mu).
    { destruct (Req_dec (snd p) mu). exists q. split; auto. congruence. exists p. auto. }
    destruct X as [r [Ir Dr]]. clear p q Ip Iq D.
    assert (Hnn : forall p, In p bins -> 0 <= fst p * (snd p - mu) * (snd p - mu) * exp (- beta * snd p)).
    { intros p Ip. specialize (P p Ip). assert (e := exp_pos (- beta * snd p)).
      rewrite Rmult_assoc. rewrite Rmult_assoc. apply Rmult_le_pos; [lra|].
      rewrite <- Rmult_assoc. apply Rmult_le_pos; [|lra].
      replace ((snd p - mu) * (snd p - mu)) with (Rsqr (snd p - mu)) by reflexivity. apply Rle_0_sqr. }
    assert (Hr : 0 < fst r * (snd r - mu) * (snd r - mu) * exp (- beta * snd r)).
    { specialize (P r Ir). assert (e := exp_pos (- beta * snd r)).
      rewrite Rmult_assoc. rewrite Rmult_assoc. apply Rmult_lt_0_compat; [lra|].
      rewrite <- Rmult_assoc. apply Rmult_lt_0_compat; [|lra].
      replace ((snd r - mu) * (snd r - mu)) with (Rsqr (snd r - mu)) by reflexivity.
      apply Rsqr_pos_lt. lra. }
    induction bins as [|b l IH]; [destruct Ir|]. cbn [map Rsum fold_right].
    assert (0 <= fst b * (snd b - mu) * (snd b - mu) * exp (- beta * snd b)) by (apply Hnn; simpl; auto).
    assert (0 <= Rsum (map (fun p => fst p * (snd p - mu) * (snd p - mu) * exp (- beta * snd p)) l)).
    { apply Rsum_nonneg. intros x Hx. apply in_map_iff in Hx. destruct Hx as [z [<- Iz]].
      apply Hnn. simpl; auto. }
    destruct Ir as [->|Ir].
    - unfold Rsum in *. lra.
    - assert (0 < Rsum (map (fun p => fst p * (snd p - mu) * (snd p - mu) * exp (- beta * snd p)) l)).
      { apply IH; auto. intros z Iz. apply P. simpl; auto. intros z Iz. apply Hnn. simpl; auto. }
      unfold Rsum in *. lra. }
  rewrite E in H. apply (Rmult_lt_reg_l (wmom 0 bins beta)); auto. rewrite Rmult_0_r. auto.
Qed.

(** ** The sums of the code *)

Lemma combine_map_r : forall A B C (g : B -> C) (l : list A) (m : list B),
  combine l (map g m) = map (fun p => (fst p, g (snd p))) (combine l m).
Proof. induction l; destruct m; simpl; auto. rewrite IHl. auto. Qed.

Lemma sums_eval : forall (tper fmag nobs : list R) beta, length tper = length fmag ->
  let bins := combine tper fmag in
  let N := Rsum nobs in
  let S := Rsum (map2 Rmult nobs fmag) in
  durations_positive bins -> bins <> [] ->
  @weichert_sums ROps tper fmag nobs beta
  = (dL bins N S beta, d2L bins N beta,
     Rsum (map (fun m => exp (- beta * m)) fmag) / wmom 0 bins beta, N).
Proof.
  intros tper fmag nobs beta L bins N S P NE. unfold weichert_sums, sq. rewrite !sumv_R. rops.
  assert (W := wmom0_pos bins beta P NE).
  assert (E0 : Rsum (map2 Rmult tper (map (fun m => exp (- beta * m)) fmag)) = wmom 0 bins beta).
  { rewrite map2_map_r, map2_combine. unfold wmom. f_equal. apply map_ext. intros. simpl. ring. }
  assert (E1 : Rsum (map2 Rmult (map2 Rmult tper (map (fun m => exp (- beta * m)) fmag)) fmag) = wmom 1 bins beta).
  { unfold wmom, bins. clear - L. revert fmag L. induction tper; intros [|m fmag] L; simpl in *; try discriminate; auto.
    rewrite IHtper by lia. simpl. ring. }
  assert (E2 : Rsum (map2 Rmult fmag (map2 Rmult (map2 Rmult tper (map (fun m => exp (- beta * m)) fmag)) fmag)) = wmom 2 bins beta).
  { unfold wmom, bins. clear - L. revert fmag L. induction tper; intros [|m fmag] L; simpl in *; try discriminate; auto.
    rewrite IHtper by lia. simpl. ring. }
  rewrite E0, E1, E2. fold N S.
  assert (A1 : wmom 1 bins beta / wmom 0 bins beta * N - S = dL bins N S beta).
  { unfold dL, wmu. ring. }
  assert (A2 : N * (wmom 1 bins beta / wmom 0 bins beta * (wmom 1 bins beta / wmom 0 bins beta)
     - wmom 2 bins beta / wmom 0 bins beta) = d2L bins N beta).
  { unfold d2L, wvar, wmu. ring. }
  rewrite A1, A2. reflexivity.
Qed.

(** ** The iteration *)

Definition newton (bins : list (R * R)) (N S beta : R) : R := beta - dL bins N S beta / d2L bins N beta.

(** The value returned when the pass starting at beta is the last one. *)
Definition weichert_result (tper fmag nobs : list R) (m0 mrate beta : R) : R * R * R * R :=
  let bins := combine tper fmag in
  let N := Rsum nobs in
  let S := Rsum (map2 Rmult nobs fmag) in
  let beta1 := newton bins N S beta in
  let a := N * (Rsum (map (fun m => exp (- beta * m)) fmag) / wmom 0 bins beta) in
  let am := a * exp (- beta1 * (mrate - m0)) in
  (beta1 / ln 10, sqrt (- (1) / d2L bins N beta) / ln 10,
   if Reqb mrate 0 then a else am,
   if Reqb mrate 0 then a * exp (- beta1 * m0) / sqrt N else am / sqrt N).

Lemma loop_eval : forall fuel (tper fmag nobs : list R) m0 mrate beta itstab,
  length tper = length fmag -> durations_positive (combine tper fmag) -> combine tper fmag <> [] ->
  @weichert_loop ROps (S fuel) tper fmag nobs m0 mrate beta itstab
  = let beta1 := newton (combine tper fmag) (Rsum nobs) (Rsum (map2 Rmult nobs fmag)) beta in
    if Rleb (Rabs (beta1 - beta)) itstab
    then Ok (weichert_result tper fmag nobs m0 mrate beta)
    else @weichert_loop ROps fuel tper fmag nobs m0 mrate beta1 itstab.
Proof.
  intros fuel tper fmag nobs m0 mrate beta itstab L P NE.
  assert (E := sums_eval tper fmag nobs beta L P NE).
  cbn [weichert_loop]. rops. rewrite E. cbv beta iota zeta.
  unfold weichert_result, newton. cbv zeta.
  destruct (Rleb _ itstab); auto. destruct (Reqb mrate 0); auto.
Qed.

Lemma loop_ok : forall fuel (tper fmag nobs : list R) m0 mrate beta itstab r,
  length tper = length fmag -> durations_positive (combine tper fmag) -> combine tper fmag <> [] ->
  @weichert_loop ROps fuel tper fmag nobs m0 mrate beta itstab = Ok r ->
  exists beta0, Rabs (newton (combine tper fmag) (Rsum nobs) (Rsum (map2 Rmult nobs fmag)) beta0 - beta0) <= itstab /\
    r = weichert_result tper fmag nobs m0 mrate beta0.
Proof.
  induction fuel; intros tper fmag nobs m0 mrate beta itstab r L P NE H; [discriminate|].
  rewrite loop_eval in H by auto. cbv zeta in H.
  destruct (Rleb _ itstab) eqn:E.
  - apply Rleb_true in E. exists beta. split; auto. congruence.
  - eapply IHfuel; eauto.
Qed.

Lemma two_bins_distinct : forall (tper fmag : list R) f0 f1 rest, length tper = length fmag ->
  fmag = f0 :: f1 :: rest -> f0 <> f1 ->
  exists p q, In p (combine tper fmag) /\ In q (combine tper fmag) /\ snd p <> snd q.
Proof.
  intros tper fmag f0 f1 rest L -> D. destruct tper as [|t0 [|t1 tper]]; try discriminate.
  exists (t0, f0), (t1, f1). simpl. auto.
Qed.

Lemma C41_proof : forall fuel (tper fmag nobs : list R) f0 f1 rest mrate beta itstab b sb a sa,
  fmag = f0 :: f1 :: rest -> f0 <> f1 ->
  length tper = length fmag -> (forall t, In t tper -> 0 < t) -> 0 < Rsum nobs ->
  @weichert ROps fuel tper fmag nobs mrate beta itstab = Ok (b, sb, a, sa) ->
  let L := weichert_loglik (combine tper fmag) (Rsum nobs) (Rsum (map2 Rmult nobs fmag)) in
  let m0 := f0 - (f1 - f0) / 2 in
  exists (L' : R -> R) beta0 beta1 d2,
    (forall x, derivable_pt_lim L x (L' x)) /\ derivable_pt_lim L' beta0 d2 /\ d2 < 0 /\
    beta1 = beta0 - L' beta0 / d2 /\ Rabs (beta1 - beta0) <= itstab /\
    b = beta1 / ln 10 /\ sb = sqrt (1 / - d2) / ln 10 /\ 0 < sb /\
    let rate := Rsum nobs * Rsum (map (fun m => exp (- beta0 * m)) fmag)
                / Rsum (map (fun p => fst p * exp (- beta0 * snd p)) (combine tper fmag)) in
    a = (if Req_EM_T mrate 0 then rate else rate * exp (- beta1 * (mrate - m0))) /\
    sa = (if Req_EM_T mrate 0 then rate * exp (- beta1 * m0) else a) / sqrt (Rsum nobs) /\
    0 < a /\ 0 < sa.
Proof.
  intros fuel tper fmag nobs f0 f1 rest mrate beta itstab b sb a sa EF D LE TP NP H L m0.
  set (bins := combine tper fmag) in *. set (N := Rsum nobs) in *.
  set (S := Rsum (map2 Rmult nobs fmag)) in *.
  assert (P : durations_positive bins).
  { intros [t m] I. apply in_combine_l in I. simpl. auto. }
  assert (TD := two_bins_distinct tper fmag f0 f1 rest LE EF D). fold bins in TD.
  assert (NE : bins <> []). { destruct TD as (p & _ & I & _). destruct bins; [destruct I|congruence]. }
  unfold weichert in H. rewrite EF in H. rewrite <- EF in H.
  apply loop_ok in H; auto. destruct H as (beta0 & ST & R). fold bins N S in ST.
  unfold weichert_result in R. fold bins N S in R. cbv zeta in R.
  set (beta1 := newton bins N S beta0) in *.
  assert (V := wvar_pos bins beta0 P TD).
  assert (D2 : d2L bins N beta0 < 0). { unfold d2L. nra. }
  assert (W := wmom0_pos bins beta0 P NE).
  assert (L10 := ln10_pos).
  exists (dL bins N S), beta0, beta1, (d2L bins N beta0).
  split. { intros x. apply dL_deriv; auto. }
  split. { apply d2L_deriv; auto. }
  split; auto. split; [reflexivity|]. split; auto.
  injection R. intros Ra Rb Rc Rd. clear R.
  split; auto.
  assert (SB : 0 < sqrt (1 / - d2L bins N beta0)).
  { apply sqrt_lt_R0. apply Rdiv_lt_0_compat; lra. }
  assert (EQ : - (1) / d2L bins N beta0 = 1 / - d2L bins N beta0) by (field; lra).
  split. { rewrite Rc, EQ. auto. }
  split. { rewrite Rc, EQ. apply Rdiv_lt_0_compat; auto. }
  cbv zeta.
  assert (EW : Rsum (map (fun p => fst p * exp (- beta0 * snd p)) bins) = wmom 0 bins beta0).
  { unfold wmom. f_equal. apply map_ext. intros. simpl. ring. }
  rewrite EW.
  set (se := Rsum (map (fun m => exp (- beta0 * m)) fmag)) in *.
  assert (SE : 0 < se).
  { unfold se. apply Rsum_pos. intros x Hx. apply in_map_iff in Hx. destruct Hx as [z [<- _]]. apply exp_pos.
    rewrite EF. discriminate. }
  assert (ER : N * (se / wmom 0 bins beta0) = N * se / wmom 0 bins beta0) by (field; lra).
  rewrite ER in Ra, Rb. rops. fold m0 in Ra, Rb.
  assert (RP : 0 < N * se / wmom 0 bins beta0).
  { apply Rdiv_lt_0_compat; auto. apply Rmult_lt_0_compat; auto. }
  set (rate := N * se / wmom 0 bins beta0) in *.
  assert (SN : 0 < sqrt N) by (apply sqrt_lt_R0; auto).
  unfold Reqb in Ra, Rb.
  destruct (Req_EM_T mrate 0).
  - subst a sa. repeat (split; auto). apply Rdiv_lt_0_compat; auto. apply Rmult_lt_0_compat; auto. apply exp_pos.
  - assert (0 < a). { rewrite Rb. apply Rmult_lt_0_compat; auto. apply exp_pos. }
    split; auto. split. { rewrite Ra, Rb. reflexivity. }
    split; auto. rewrite Ra. apply Rdiv_lt_0_compat; auto. rewrite <- Rb. auto.
Qed.

(** ** Divergence when every event is in an extreme bin *)

Definition mags_within (lo hi : R) (bins : list (R * R)) : Prop :=
  forall p, In p bins -> lo <= snd p <= hi.

Lemma bhatia_davis : forall bins beta lo hi, durations_positive bins -> bins <> [] ->
  mags_within lo hi bins -> wvar bins beta <= (hi - wmu bins beta) * (wmu bins beta - lo).
Proof.
  intros bins beta lo hi P NE B. assert (W := wmom0_pos bins beta P NE).
  assert (E : forall l, Rsum (map (fun p => fst p * ((hi - snd p) * (snd p - lo)) * exp (- beta * snd p)) l)
    = (hi + lo) * wmom 1 l beta - hi * lo * wmom 0 l beta - wmom 2 l beta).
  { intros l. unfold wmom. induction l; cbn [map Rsum fold_right]; [lra|].
    cbn [map Rsum fold_right] in IHl. rewrite IHl. ring. }
  assert (0 <= Rsum (map (fun p => fst p * ((hi - snd p) * (snd p - lo)) * exp (- beta * snd p)) bins)).
  { apply Rsum_nonneg. intros x Hx. apply in_map_iff in Hx. destruct Hx as [p [<- Ip]].
    specialize (P p Ip). specialize (B p Ip). assert (e := exp_pos (- beta * snd p)).
    apply Rmult_le_pos; [|lra]. apply Rmult_le_pos; [lra|]. apply Rmult_le_pos; lra. }
  rewrite E in H. unfold wvar.
  assert (0 <= ((hi + lo) * wmom 1 bins beta - hi * lo * wmom 0 bins beta - wmom 2 bins beta) / wmom 0 bins beta).
  { apply Rmult_le_pos; auto. left. apply Rinv_0_lt_compat. auto. }
  assert (EQ : ((hi + lo) * wmom 1 bins beta - hi * lo * wmom 0 bins beta - wmom 2 bins beta) / wmom 0 bins beta
    = (hi + lo) * wmu bins beta - hi * lo - wmom 2 bins beta / wmom 0 bins beta).
  { unfold wmu. field. lra. }
  lra.
Qed.

Lemma wmu_within : forall bins beta lo hi, durations_positive bins -> bins <> [] ->
  mags_within lo hi bins -> lo <= wmu bins beta <= hi.
Proof.
  intros bins beta lo hi P NE B. assert (W := wmom0_pos bins beta P NE).
  assert (A : lo * wmom 0 bins beta <= wmom 1 bins beta <= hi * wmom 0 bins beta).
  { clear W NE. unfold wmom. induction bins as [|b l IH]; cbn [map Rsum fold_right]; [lra|].
    assert (0 < fst b) by (apply P; simpl; auto).
    assert (Hb : lo <= snd b <= hi) by (apply B; simpl; auto).
    assert (e := exp_pos (- beta * snd b)).
    assert (IH' : lo * Rsum (map (fun p => fst p * snd p ^ 0 * exp (- beta * snd p)) l) <=
      Rsum (map (fun p => fst p * snd p ^ 1 * exp (- beta * snd p)) l) <=
      hi * Rsum (map (fun p => fst p * snd p ^ 0 * exp (- beta * snd p)) l)).
    { apply IH. intros z Iz; apply P; simpl; auto. intros z Iz; apply B; simpl; auto. }
    simpl pow in *.
    assert (0 < fst b * exp (- beta * snd b)) by (apply Rmult_lt_0_compat; auto).
    set (u := fst b * exp (- beta * snd b)) in *.
    replace (fst b * (snd b * 1) * exp (- beta * snd b)) with (u * snd b) by (unfold u; ring).
    replace (fst b * 1 * exp (- beta * snd b)) with u by (unfold u; ring).
    assert (0 <= u * (snd b - lo)) by (apply Rmult_le_pos; lra).
    assert (0 <= u * (hi - snd b)) by (apply Rmult_le_pos; lra).
    rewrite !Rmult_plus_distr_l. split; lra. }
  unfold wmu. split.
  - apply (Rmult_le_reg_r (wmom 0 bins beta)); auto. unfold Rdiv. rewrite Rmult_assoc, Rinv_l by lra. lra.
  - apply (Rmult_le_reg_r (wmom 0 bins beta)); auto. unfold Rdiv. rewrite Rmult_assoc, Rinv_l by lra. lra.
Qed.

Lemma extreme_step : forall bins N S beta lo hi, durations_positive bins ->
  (exists p q, In p bins /\ In q bins /\ snd p <> snd q) -> mags_within lo hi bins -> 0 < N ->
  S = N * lo \/ S = N * hi ->
  1 <= Rabs (newton bins N S beta - beta) * (hi - lo).
Proof.
  intros bins N S beta lo hi P TD B HN HS.
  assert (V := wvar_pos bins beta P TD).
  assert (NE : bins <> []). { destruct TD as (p & _ & I & _). destruct bins; [destruct I|congruence]. }
  assert (BD := bhatia_davis bins beta lo hi P NE B).
  assert (MU := wmu_within bins beta lo hi P NE B).
  assert (ST : newton bins N S beta - beta = (wmu bins beta - S / N) / wvar bins beta).
  { unfold newton, dL, d2L. field. split; lra. }
  set (mu := wmu bins beta) in *. set (v := wvar bins beta) in *.
  rewrite ST. unfold Rdiv at 1. rewrite Rabs_mult. rewrite (Rabs_right (/ v)).
  2:{ left. apply Rinv_0_lt_compat. auto. }
  apply (Rmult_le_reg_r v); auto.
  replace (Rabs (mu - S / N) * / v * (hi - lo) * v) with (Rabs (mu - S / N) * (hi - lo)) by (field; lra).
  destruct HS as [-> | ->].
  - replace (mu - N * lo / N) with (mu - lo) by (field; lra). rewrite Rabs_right by lra. nra.
  - replace (mu - N * hi / N) with (mu - hi) by (field; lra). rewrite Rabs_left1 by lra. nra.
Qed.

Lemma loop_diverges : forall fuel (tper fmag nobs : list R) m0 mrate beta itstab lo hi,
  length tper = length fmag -> durations_positive (combine tper fmag) ->
  (exists p q, In p (combine tper fmag) /\ In q (combine tper fmag) /\ snd p <> snd q) ->
  mags_within lo hi (combine tper fmag) -> 0 < Rsum nobs ->
  (let S := Rsum (map2 Rmult nobs fmag) in S = Rsum nobs * lo \/ S = Rsum nobs * hi) ->
  itstab * (hi - lo) < 1 ->
  @weichert_loop ROps fuel tper fmag nobs m0 mrate beta itstab = Err OutOfFuel.
Proof.
  induction fuel; intros tper fmag nobs m0 mrate beta itstab lo hi L P TD B HN HS HT; [reflexivity|].
  assert (NE : combine tper fmag <> []). { destruct TD as (p & _ & I & _). intros X. rewrite X in I. destruct I. }
  rewrite loop_eval by auto. cbv zeta.
  assert (X := extreme_step _ _ _ beta lo hi P TD B HN HS).
  destruct (Rleb _ itstab) eqn:E.
  - exfalso. apply Rleb_true in E.
    assert (lo <= hi). { destruct TD as (p & _ & I & _). specialize (B p I). lra. }
    assert (Rabs (newton (combine tper fmag) (Rsum nobs) (Rsum (map2 Rmult nobs fmag)) beta - beta) * (hi - lo)
       <= itstab * (hi - lo)) by (apply Rmult_le_compat_r; lra). lra.
  - eapply IHfuel; eauto.
Qed.

Lemma weighted_single : forall (nobs fmag : list R) m, length nobs = length fmag ->
  (forall n x, In (n, x) (combine nobs fmag) -> n = 0 \/ x = m) ->
  Rsum (map2 Rmult nobs fmag) = Rsum nobs * m.
Proof.
  induction nobs; intros [|f fmag] m L H; simpl in *; try discriminate; [lra|].
  rewrite (IHnobs fmag m). 2: lia. 2: { intros n x I. apply H. auto. }
  destruct (H a f (or_introl eq_refl)); subst; lra.
Qed.

Lemma C42_extreme_proof : forall fuel (tper fmag nobs : list R) mrate beta itstab lo hi extreme,
  length tper = length fmag -> length nobs = length fmag -> (forall t, In t tper -> 0 < t) ->
  is_min lo fmag -> is_max hi fmag -> lo < hi ->
  0 < Rsum nobs -> (extreme = lo \/ extreme = hi) ->
  (forall n x, In (n, x) (combine nobs fmag) -> n = 0 \/ x = extreme) ->
  itstab < 1 / (hi - lo) ->
  @weichert ROps fuel tper fmag nobs mrate beta itstab = Err OutOfFuel.
Proof.
  intros fuel tper fmag nobs mrate beta itstab lo hi ex L1 L2 TP [ML1 ML2] [MH1 MH2] LH HN HE HX HT.
  assert (P : durations_positive (combine tper fmag)).
  { intros [t m] I. apply in_combine_l in I. simpl. auto. }
  assert (PI : forall x, In x fmag -> exists p, In p (combine tper fmag) /\ snd p = x).
  { intros x I. apply In_nth_error in I. destruct I as [k Hk].
    assert (k < length tper)%nat by (rewrite L1; apply nth_error_Some; congruence).
    destruct (nth_error tper k) as [t|] eqn:E; [|apply nth_error_None in E; lia].
    exists (t, x). split; auto. apply nth_error_In with (n := k).
    clear - E Hk. revert tper fmag E Hk. induction k; intros [|t' tper] [|f fmag] E Hk; simpl in *; try discriminate; try congruence. auto. }
  destruct fmag as [|f0 [|f1 rest]].
  - destruct ML1.
  - exfalso. destruct ML1 as [<-|[]], MH1 as [<-|[]]. lra.
  - unfold weichert. apply (loop_diverges _ _ _ _ _ _ _ _ lo hi); auto.
    + destruct (PI lo ML1) as [p [Ip Ep]]. destruct (PI hi MH1) as [q [Iq Eq]].
      exists p, q. split; auto. split; auto. rewrite Ep, Eq. lra.
    + intros [t m] I. apply in_combine_r in I. simpl. split; [apply ML2|apply MH2]; auto.
    + cbv zeta. rewrite (weighted_single nobs _ ex) by auto. destruct HE as [-> | ->]; auto.
    + apply (Rmult_lt_reg_r (/ (hi - lo))). apply Rinv_0_lt_compat; lra.
      rewrite Rmult_assoc, Rinv_r by lra. unfold Rdiv in HT. lra.
Qed.

(** ** A catalogue for which recurrence_analysis never returns *)

Lemma tenth_exact : forall (z : Z) r, tenth (IZR z / 10) r -> r = IZR z / 10.
Proof.
  intros z r [[k ->] H]. assert (Z : k = z); [|congruence].
  assert (A : -(1/2) <= IZR k - IZR z <= 1/2).
  { unfold Rabs in H. destruct (Rcase_abs _); lra. }
  assert (H0 : IZR k < IZR (z + 1)) by (rewrite plus_IZR; lra).
  assert (H5 : IZR z < IZR (k + 1)) by (rewrite plus_IZR; lra).
  apply lt_IZR in H0, H5. lia.
Qed.

Definition w42_year : list R := [1980; 1985].
Definition w42_mag : list R := [50/10; 45/10].
Definition w42_table : list (R * R) := [(1985, 6)].

Lemma w42_prep : exists n cent tper nobs,
  @weichert_prep ROps w42_year w42_mag w42_table (5/10) 1 = Ok (cent, tper, nobs) /\
  length cent = n /\ length tper = n /\ length nobs = n /\ (2 <= n <= 3)%nat /\
  (forall t, In t tper -> t = 1) /\
  (forall i c, nth_error cent i = Some c -> c = 45/10 + (INR i + 1/2) * (5/10)) /\
  nth_error nobs 0 = Some 1%nat /\ (forall i k, nth_error nobs (S i) = Some k -> k = 0%nat).
Proof.
  destruct (C39_proof w42_year w42_mag w42_table (5/10) 1) as
    (rm & ymin & ymax & mmin & n & cent & tper & nobs & RT & YN & YX & MN & E & L1 & L2 & L3 & B & (mm & B2 & B3) & SP);
    try lra; try reflexivity; try discriminate.
  assert (ER : rm = w42_mag).
  { clear - RT. unfold w42_mag in *. inversion RT as [|? ? ? ? H1 H2]; subst.
    inversion H2 as [|? ? ? ? H3 H4]; subst. inversion H4; subst.
    apply tenth_exact in H1, H3. subst. auto. }
  subst rm.
  assert (ymin = 1980). { destruct YN as [[<-|[<-|[]]] Y2]; auto. specialize (Y2 1980 (or_introl eq_refl)). rops. lra. }
  assert (ymax = 1985). { destruct YX as [[<-|[<-|[]]] Y2]; auto. specialize (Y2 1985 (or_intror (or_introl eq_refl))). rops. lra. }
  assert (mmin = 45/10). { destruct MN as [[<-|[<-|[]]] Y2]; auto. specialize (Y2 (45/10) (or_intror (or_introl eq_refl))). rops. lra. }
  subst ymin ymax mmin.
  exists n, cent, tper, nobs. split; auto. split; auto. split; auto. split; auto.
  assert (NB : (2 <= n <= 3)%nat).
  { specialize (B (50/10) (or_introl eq_refl)). rops.
    assert (mm <= 50/10) by (destruct B2 as [<-|[<-|[]]]; lra).
    assert (1 < INR n) by lra. assert (INR n < 3) by lra.
    change 1 with (INR 1) in H0. replace 3 with (INR 3) in H1 by (simpl; lra). apply INR_lt in H0, H1. lia. }
  split; auto.
  split. { intros t It. apply In_nth_error in It. destruct It as [i Hi].
    assert (Li : (i < n)%nat) by (rewrite <- L2; apply nth_error_Some; congruence).
    destruct (SP i Li) as (_ & _ & cy & (k & cm & Hk & _) & Ht). rewrite Hi in Ht.
    destruct k as [|k]; simpl in Hk; [|destruct k; discriminate]. injection Hk. intros _ <-.
    injection Ht. intros ->. lra. }
  split. { intros i c Hi. assert (Li : (i < n)%nat) by (rewrite <- L1; apply nth_error_Some; congruence).
    destruct (SP i Li) as (H & _). congruence. }
  assert (BS1 : bin_start 1980 1 1985 = 1985).
  { unfold bin_start. rewrite (Rfloor_unique _ 5). lra. simpl. lra. }
  assert (BS0 : bin_start 1980 1 1980 = 1980).
  { unfold bin_start. rewrite (Rfloor_unique _ 0). lra. simpl. lra. }
  assert (CE : forall i, counts_in 1980 1 (45/10) (5/10) w42_table i (1985, 45/10) = bin_of (45/10) (5/10) i (45/10)).
  { intros i. unfold counts_in, w42_table. cbn [fst snd forallb]. rewrite BS1. rdec. rewrite andb_true_r. reflexivity. }
  assert (CF : forall i, (i < 3)%nat -> counts_in 1980 1 (45/10) (5/10) w42_table i (1980, 50/10) = false).
  { intros i Hi. unfold counts_in, w42_table. cbn [fst snd forallb]. rewrite BS0.
    assert (INR i <= 2). { replace 2 with (INR 2) by (simpl; lra). apply le_INR. lia. }
    assert (X : Rltb (45/10 + INR i * (5/10)) 6 = true) by (apply Rltb_true; lra). rewrite X. rdec.
    cbn [negb andb]. apply andb_false_r. }
  assert (NO : forall i, (i < n)%nat -> nth_error nobs i = Some (if bin_of (45/10) (5/10) i (45/10) then 1%nat else 0%nat)).
  { intros i Li. destruct (SP i Li) as (_ & H & _). rewrite H. f_equal.
    unfold w42_year, w42_mag. cbn [combine]. rewrite !count_cons. rewrite CF, CE by lia.
    destruct (bin_of _ _ i _); reflexivity. }
  split.
  - rewrite NO by lia. unfold bin_of. cbn [INR Nat.add]. rdec. reflexivity.
  - intros i k H. assert (Li : (S i < n)%nat) by (rewrite <- L3; apply nth_error_Some; congruence).
    rewrite NO in H by auto. unfold bin_of in H. rewrite S_INR in H. assert (Q := pos_INR i).
    assert (X : Rleb (45/10 + (INR i + 1) * (5/10)) (45/10) = false) by (apply Rleb_false; lra).
    rewrite X in H. cbn [andb] in H. congruence.
Qed.

Lemma Rsum_zero : forall l, (forall x, In x l -> x = 0) -> Rsum l = 0.
Proof. induction l; simpl; intros; auto. rewrite (H a), IHl; auto. lra. Qed.

Lemma C42_refuted_proof : exists (year mag : list R) (table : list (R * R)) d_m d_t cent tper nobs,
  0 < d_m /\ 0 < d_t /\ length mag = length year /\ table <> [] /\
  @weichert_prep ROps year mag table d_m d_t = Ok (cent, tper, nobs) /\
  (0 < list_sum nobs)%nat /\ (forall t, In t tper -> 0 < t) /\ (2 <= length cent)%nat /\
  forall fuel ref_mag,
    @recurrence_analysis ROps fuel year mag table d_m "Weichert" ref_mag d_t = Err OutOfFuel.
Proof.
  destruct w42_prep as (n & cent & tper & nobs & E & L1 & L2 & L3 & Ln & TP & CM & N0 & NS).
  exists w42_year, w42_mag, w42_table, (5/10), 1, cent, tper, nobs.
  split; [lra|]. split; [lra|]. split; [reflexivity|]. split; [discriminate|]. split; [exact E|].
  destruct nobs as [|n0 nobs]; [discriminate|]. simpl in N0. injection N0. intros ->.
  split; [simpl; lia|]. split. { intros t I. rewrite (TP t I). lra. }
  split; [lia|].
  intros fuel ref_mag. unfold recurrence_analysis.
  replace (String.eqb "Weichert" "Weichert") with true by reflexivity.
  rops. rewrite E. cbn [bind].
  assert (HM : forall i, (i < n)%nat -> nth_error cent i = Some (45/10 + (INR i + 1/2) * (5/10))).
  { intros i Li. destruct (nth_error cent i) eqn:X. rewrite (CM i r X). auto.
    apply nth_error_None in X. lia. }
  assert (Z : forall x, In x (map (@ofnat ROps) nobs) -> x = 0).
  { intros x I. apply in_map_iff in I. destruct I as [k [<- Ik]]. apply In_nth_error in Ik.
    destruct Ik as [i Hi]. rewrite (NS i k Hi). reflexivity. }
  apply (C42_extreme_proof _ _ _ _ _ _ _ (45/10 + (INR 0 + 1/2) * (5/10)) (45/10 + (INR (n-1) + 1/2) * (5/10))
     (45/10 + (INR 0 + 1/2) * (5/10))).
  - lia.
  - rewrite map_length. lia.
  - intros t I. rewrite (TP t I). lra.
  - split. { apply nth_error_In with (n := 0%nat). apply HM. lia. }
    intros x I. apply In_nth_error in I. destruct I as [i Hi]. rewrite (CM i x Hi).
    simpl INR. assert (Q := pos_INR i). lra.
  - split. { apply nth_error_In with (n := (n-1)%nat). apply HM. lia. }
    intros x I. apply In_nth_error in I. destruct I as [i Hi]. rewrite (CM i x Hi).
    assert (i < n)%nat by (rewrite <- L1; apply nth_error_Some; congruence).
    assert (INR i <= INR (n-1)) by (apply le_INR; lia). lra.
  - assert (INR 0 < INR (n-1)) by (apply lt_INR; lia). lra.
  - simpl map. change (0 < INR 1 + Rsum (map (@ofnat ROps) nobs)). rewrite Rsum_zero by auto. simpl. lra.
  - auto.
  - intros x c I. apply In_nth_error in I. destruct I as [i Hi].
    destruct cent as [|c0 cent]; [simpl in L1; lia|]. destruct i as [|i].
    + right. simpl in Hi. injection Hi. intros <- _. apply (CM 0%nat). reflexivity.
    + left. simpl in Hi. apply Z. apply in_combine_l with (l' := cent) (y := c). eapply nth_error_In; eauto.
  - unfold lit. rops. simpl INR at 2.
    assert (A1 : INR (n-1) <= 2). { replace 2 with (INR 2) by (simpl; lra). apply le_INR. lia. }
    assert (A0 : 1 <= INR (n-1)). { change 1 with (INR 1). apply le_INR. lia. }
    set (w := 45 / 10 + (INR (n - 1) + 1 / 2) * (5 / 10) - (45 / 10 + (0 + 1 / 2) * (5 / 10))).
    assert (W1 : 0 < w <= 1) by (unfold w; lra).
    assert (1 <= 1 / w); [|lra].
    apply (Rmult_le_reg_r w). lra. unfold Rdiv. rewrite Rmult_assoc, Rinv_l by lra. lra.
Qed.

(** ** Dispatch (C43) *)

Lemma C43_proof : forall (AR : Ops) fuel (year mag : list T) table mag_window name
    ref_mag time_window,
  (name = "Weichert"%string ->
   recurrence_analysis fuel year mag table mag_window name ref_mag time_window
   = match weichert_prep year mag table mag_window time_window with
     | Ok (cent_mag, t_per, n_obs) =>
         weichert fuel t_per cent_mag (map ofnat n_obs) ref_mag (lit 15 10) (lit 1 100000)
     | Err e => Err e
     end) /\
  (name <> "Weichert"%string ->
   recurrence_analysis fuel year mag table mag_window name ref_mag time_window
   = b_maxlike_time year mag (map fst table) (map snd table) mag_window ref_mag).
Proof.
  intros. unfold recurrence_analysis. split; intros H.
  - subst. rewrite String.eqb_refl. destruct (weichert_prep _ _ _ _ _) as [[[c t] n]|e]; reflexivity.
  - apply String.eqb_neq in H. rewrite H. reflexivity.
Qed.
