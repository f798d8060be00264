(** Proof of C127: Weichert's b-value of a catalogue. *)
From Coq Require Import String ZArith Arith Bool List Lia Reals Lra.
From Verif Require Import Base Ops BaseFacts RFacts SteppSpec Recurrence RecurrenceSpec
  SteppProofs RecurrenceProofs WeichertProofs WeichertNewton WeichertLocal WeichertGlobal BootProofs CatalogueSpec.
Import ListNotations.
Local Open Scope R_scope.

Fixpoint zip3 (ts ms : list R) (ns : list nat) : list mbin :=
  match ts, ms, ns with t :: ts', m :: ms', n :: ns' => mkBin t m n :: zip3 ts' ms' ns' | _, _, _ => [] end.

Lemma zip3_nth : forall ts ms ns i t m n, nth_error ts i = Some t -> nth_error ms i = Some m -> nth_error ns i = Some n ->
  nth_error (zip3 ts ms ns) i = Some (mkBin t m n).
Proof.
  induction ts as [|a ts IH]; intros [|b ms] [|c ns] [|i] t m n A B C; simpl in *; try discriminate.
  - now injection A as ->; injection B as ->; injection C as ->.
  - auto.
Qed.

Lemma zip3_length : forall ts ms ns, length ms = length ts -> length ns = length ts -> length (zip3 ts ms ns) = length ts.
Proof. induction ts as [|a ts IH]; intros [|b ms] [|c ns] A B; simpl in *; try discriminate; auto. Qed.

Lemma zip3_total : forall ts ms ns, length ms = length ts -> length ns = length ts ->
  INR (bins_total (zip3 ts ms ns)) = Rsum (map INR ns).
Proof.
  induction ts as [|a ts IH]; intros [|b ms] [|c ns] A B; simpl in *; try discriminate; auto.
  rewrite plus_INR. f_equal. apply IH; lia.
Qed.

Lemma zip3_mom : forall ts ms ns beta, length ms = length ts -> length ns = length ts ->
  Rsum (map (expected beta) (zip3 ts ms ns)) = wmom 0 (combine ts ms) beta.
Proof.
  unfold wmom. induction ts as [|a ts IH]; intros [|b ms] [|c ns] beta A B; simpl in *; try discriminate; auto.
  rewrite IH by lia. unfold expected. simpl. ring.
Qed.

(** Up to a constant the two likelihoods agree. *)
Lemma zip3_sum : forall ts ms ns beta w, length ms = length ts -> length ns = length ts -> (forall t, In t ts -> 0 < t) -> 0 < w ->
  Rsum (map (fun x => INR (mb_n x) * ln (expected beta x / w)) (zip3 ts ms ns))
  = Rsum (map2 (fun t n => INR n * ln t) ts ns) - beta * Rsum (map2 Rmult (map INR ns) ms) - Rsum (map INR ns) * ln w.
Proof.
  induction ts as [|a ts IH]; intros [|b ms] [|c ns] beta w A B P W; simpl in *; try discriminate; [ring|].
  rewrite IH by (auto; lia). unfold expected at 1. simpl.
  assert (E := exp_pos (- beta * b)). assert (0 < a) by auto.
  unfold Rdiv. rewrite ln_mult, ln_Rinv, ln_mult, ln_exp; auto using Rinv_0_lt_compat, Rmult_lt_0_compat. ring.
Qed.

Lemma wmom0_pos : forall ts ms beta, length ms = length ts -> ts <> [] -> (forall t, In t ts -> 0 < t) -> 0 < wmom 0 (combine ts ms) beta.
Proof.
  intros ts ms beta L N P. unfold wmom. apply Rsum_pos.
  - intros x I. apply in_map_iff in I. destruct I as ((t & m) & <- & I). simpl. apply in_combine_l in I.
    assert (E := exp_pos (- beta * m)). assert (0 < t) by auto. rewrite Rmult_1_r. apply Rmult_lt_0_compat; auto.
  - destruct ts, ms; simpl in *; try discriminate; contradiction.
Qed.

Lemma loglik_shift : forall ts ms ns, length ms = length ts -> length ns = length ts -> ts <> [] -> (forall t, In t ts -> 0 < t) ->
  exists c, forall beta, counts_loglik (zip3 ts ms ns) beta
    = c + weichert_loglik (combine ts ms) (Rsum (map INR ns)) (Rsum (map2 Rmult (map INR ns) ms)) beta.
Proof.
  intros ts ms ns A B N P. exists (Rsum (map2 (fun t n => INR n * ln t) ts ns)). intros beta.
  unfold counts_loglik, bin_probability, weichert_loglik. rewrite zip3_mom by auto.
  rewrite zip3_sum by (auto using wmom0_pos). ring.
Qed.

Lemma C127_proof : forall fuel (year mag : list R) (table : list (R * R)) d_m d_t ref b sb a sa,
  0 < d_m <= 1000 -> 0 < d_t -> length mag = length year -> year <> [] -> table <> [] ->
  (forall cy cm, In (cy, cm) table -> exists y, In y year /\ cy <= y) ->
  (forall m m', In m mag -> In m' mag -> m - m' <= 10000) ->
  @recurrence_analysis ROps fuel year mag table d_m "Weichert" ref d_t = Ok (b, sb, a, sa) ->
  exists rm ymin ymax mmin bins,
    Forall2 tenth mag rm /\ is_min ymin year /\ is_max ymax year /\ is_min mmin rm /\ (2 <= length bins)%nat /\
    (forall m, In m rm -> mmin <= m < mmin + INR (length bins) * d_m) /\
    (exists m, In m rm /\ mmin + INR (length bins) * d_m < m + 3 / 2 * d_m) /\
    (forall i x, nth_error bins i = Some x ->
       mb_mag x = mmin + (INR i + 1 / 2) * d_m /\
       mb_n x = count (counts_in ymin d_t mmin d_m table i) (combine year rm) /\
       exists cy, time_row table (mmin + INR i * d_m) cy /\ mb_time x = ymax - cy + 1) /\
    ((0 < bins_total bins)%nat -> exists best (L' : R -> R) d2 r,
       (forall beta, beta <> best -> counts_loglik bins beta < counts_loglik bins best) /\
       Rabs (b * ln 10 - best) <= 1 / 100000 /\
       (forall x, derivable_pt_lim (counts_loglik bins) x (L' x)) /\ derivable_pt_lim L' best d2 /\ d2 < 0 /\
       sb * ln 10 = r * sqrt (1 / - d2) /\
       let e := INR (length bins) * d_m / 100000 in exp (- e) <= r <= exp e).
Proof.
  intros fuel year mag table d_m d_t ref b sb a sa (D0 & D1) DT LM NY NT TB RG H.
  destruct (C39_proof year mag table d_m d_t D0 DT NY LM NT)
    as (rm & ymin & ymax & mmin & n & cent & tper & nobs & RM & YM & YX & MM & PREP & LC & LT & LN & RANGE & (mt & MT & TOP) & BINS).
  rewrite (proj1 (C43_proof ROps fuel year mag table d_m "Weichert"%string ref d_t) eq_refl) in H.
  rewrite PREP in H.
  change (@T ROps) with R in *.
  set (bins := zip3 tper cent nobs).
  assert (LB : length bins = n) by (unfold bins; rewrite zip3_length; congruence).
  assert (EC : exists f0 f1 rest, cent = f0 :: f1 :: rest).
  { destruct cent as [|f0 [|f1 rest]]; [simpl in H; discriminate|simpl in H; discriminate|eauto]. }
  destruct EC as (f0 & f1 & rest & EC).
  assert (N2 : (2 <= n)%nat) by (rewrite <- LC, EC; simpl; lia).
  assert (TP : forall t, In t tper -> 0 < t).
  { intros t I. apply In_nth_error in I. destruct I as (i & I). assert (LI : (i < n)%nat) by (rewrite <- LT; apply nth_error_Some; congruence).
    destruct (BINS i LI) as (_ & _ & cy & (k & cm & R1 & _) & E). rewrite E in I. injection I as <-.
    destruct (TB cy cm) as (y & Y1 & Y2); [eapply nth_error_In; exact R1|]. assert (y <= ymax) by (apply YX; auto). lra. }
  exists rm, ymin, ymax, mmin, bins. rewrite LB.
  do 4 (split; [assumption|]). split; [exact N2|]. split; [exact RANGE|]. split; [eauto|]. split.
  - intros i x I. assert (LI : (i < n)%nat) by (rewrite <- LB; apply nth_error_Some; congruence).
    destruct (BINS i LI) as (B1 & B2 & cy & B3 & B4).
    assert (Z := zip3_nth tper cent nobs i _ _ _ B4 B1 B2). assert (Q := eq_trans (eq_sym I) Z). injection Q as ->. simpl. eauto.
  - intros POS.
    assert (NP : 0 < Rsum (map INR nobs)) by (rewrite <- (zip3_total tper cent nobs) by congruence; apply lt_0_INR; exact POS).
    assert (MO : map (@ofnat ROps) nobs = map INR nobs) by (apply map_ext; intros k; apply ofnat_R).
    assert (CB : forall m, In m cent -> mmin <= m <= mmin + INR n * d_m).
    { intros m I. apply In_nth_error in I. destruct I as (i & I). assert (LI : (i < n)%nat) by (rewrite <- LC; apply nth_error_Some; congruence).
      destruct (BINS i LI) as (B1 & _). rewrite B1 in I. injection I as <-.
      assert (0 <= INR i) by apply pos_INR. assert (INR i + 1 <= INR n) by (rewrite <- S_INR; apply le_INR; lia).
      split; [assert (0 <= (INR i + 1 / 2) * d_m) by (apply Rmult_le_pos; lra); lra|].
      apply Rplus_le_compat_l. apply Rmult_le_compat_r; lra. }
    assert (F01 : f0 <> f1).
    { destruct (BINS 0%nat ltac:(lia)) as (B0 & _). destruct (BINS 1%nat ltac:(lia)) as (B1 & _). rewrite EC in B0, B1. simpl in B0, B1.
      injection B0 as B0. injection B1 as B1. lra. }
    assert (SPAN : mmin + INR n * d_m - mmin <= 20000).
    { assert (T1 : forall m, In m rm -> exists x, In x mag /\ Rabs (m - x) <= 1 / 20).
      { clear - RM. intros m I. induction RM as [|x r mag rm (_ & T) F IH]; [destruct I|]. destruct I as [<-|I].
        - exists x. simpl. auto.
        - destruct (IH I) as (y & Y & Q). exists y. simpl. auto. }
      destruct (T1 mt MT) as (x1 & X1 & Q1). destruct (T1 mmin (proj1 MM)) as (x2 & X2 & Q2).
      assert (R := RG x1 x2 X1 X2). unfold Rabs in Q1, Q2. destruct (Rcase_abs (mt - x1)), (Rcase_abs (mmin - x2)); lra. }
    assert (H' : @weichert ROps fuel tper cent (map INR nobs) ref (@lit ROps 15 10) (@lit ROps 1 100000) = Ok (b, sb, a, sa)) by (rewrite <- MO; exact H).
    destruct (C93_proof fuel tper cent (map INR nobs) f0 f1 rest mmin (mmin + INR n * d_m) ref (@lit ROps 15 10) (@lit ROps 1 100000) b sb a sa
                EC F01 ltac:(congruence) TP NP CB) as (best & L' & d2 & r & BEST & NEAR & DL & DL2 & NEG & SB & RB).
    { change (@lit ROps 1 100000) with (1 / 100000). lra. }
    { exact H'. }
    destruct (loglik_shift tper cent nobs) as (c & SH); try congruence; auto.
    { intros ->. simpl in LT. lia. }
    fold bins in SH. exists best, L', d2, r.
    split. { intros beta NE. rewrite !SH. apply Rplus_lt_compat_l. apply BEST; auto. }
    split; [exact NEAR|]. split.
    { intros x eps E. destruct (DL x eps E) as (delta & D). exists delta. intros h H0 H1. specialize (D h H0 H1).
      rewrite !SH. match goal with |- Rabs ((?p - ?q) / _ - _) < _ => match type of D with Rabs (?d / _ - _) < _ => replace (p - q) with d by ring end end. exact D. }
    split; [exact DL2|]. split; [exact NEG|]. split; [exact SB|]. cbv zeta.
    change (@lit ROps 1 100000) with (1 / 100000) in RB.
    replace (INR n * d_m / 100000) with ((mmin + INR n * d_m - mmin) * (1 / 100000)) by lra. exact RB.
Qed.

(** ** Seven events for which it returns *)
Lemma six_one_best : forall itstab mrate, 0 < itstab -> exists fuel r,
  @weichert ROps fuel [1; 1] [11 / 2; 13 / 2] [6; 1] mrate (3 / 2) itstab = Ok r.
Proof.
  intros itstab mrate HT.
  destruct (C42_grid_proof [1; 1] [11 / 2; 13 / 2] [6; 1] (11 / 2) 1 0) as (best & L' & L'' & M & D1 & D2 & G); auto.
  - intros t [<-|[<-|[]]]; lra.
  - intros n [<-|[<-|[]]]; lra.
  - lra.
  - intros [|[|i]] m Hm; simpl in Hm; try (injection Hm as <-; simpl; lra). destruct i; discriminate.
  - intros [|[|i]] t t' Ht Ht'; simpl in Ht, Ht'; try discriminate;
      try (injection Ht as <-; injection Ht' as <-; rewrite Rmult_0_l, exp_0; lra).
  - exists 1, (13 / 2), (11 / 2). simpl. repeat split; auto; lra.
  - exists 6, (11 / 2), (13 / 2). simpl. repeat split; auto; lra.
  - assert (EB : best = ln 6).
    { set (bins := combine [1; 1] [11 / 2; 13 / 2]) in *.
      assert (P : durations_positive bins) by (intros p [<-|[<-|[]]]; simpl; lra).
      assert (TD : exists p q, In p bins /\ In q bins /\ snd p <> snd q).
      { exists (1, 11 / 2), (1, 13 / 2). simpl. repeat split; auto. lra. }
      assert (X := estimate_max bins (Rsum [6; 1]) (Rsum (map2 Rmult [6; 1] [11 / 2; 13 / 2])) P TD
        ltac:(unfold Rsum; simpl; lra) (ln 6)).
      destruct (Req_dec best (ln 6)) as [E|E]; auto. exfalso.
      assert (Y := M (ln 6) ltac:(congruence)).
      assert (D0 : dL bins (Rsum [6; 1]) (Rsum (map2 Rmult [6; 1] [11 / 2; 13 / 2])) (ln 6) = 0).
      { unfold dL, wmu, wmom, bins, Rsum. cbn [combine map fold_right fst snd pow map2].
        replace (- ln 6 * (13 / 2)) with (- ln 6 * (11 / 2) + - ln 6) by lra.
        rewrite !exp_plus, exp_Ropp, exp_ln by lra.
        assert (e := exp_pos (- ln 6 * (11 / 2))). set (x := exp (- ln 6 * (11 / 2))) in *. field. lra. }
      assert (Z' := X D0 best E). lra. }
    assert (LB : 3 / 2 <= best).
    { rewrite EB. apply Rnot_lt_le. intros H. apply exp_increasing in H. rewrite exp_ln in H by lra.
      assert (X := exp_ineq1_le (- (1 / 4))). assert (e := exp_pos (1 / 4)). rewrite exp_Ropp in X.
      assert (Y : exp (1 / 4) <= 4 / 3).
      { apply (Rmult_le_reg_l (/ exp (1 / 4))). apply Rinv_0_lt_compat; auto. rewrite Rinv_l by lra. lra. }
      replace (3 / 2) with (1 / 4 + 1 / 4 + 1 / 4 + 1 / 4 + 1 / 4 + 1 / 4) in H by lra.
      rewrite !exp_plus in H. set (z := exp (1 / 4)) in *.
      assert (z * z * z * z * z * z <= (4/3) * (4/3) * (4/3) * (4/3) * (4/3) * (4/3)).
      { repeat apply Rmult_le_compat; repeat apply Rmult_le_pos; lra. }
      lra. }
    apply G; auto; lra.
Qed.

Lemma tenth_whole : forall z r, tenth (IZR z) r -> r = IZR z.
Proof.
  intros z r ((k & ->) & H). assert (K : k = (10 * z)%Z).
  { assert (A : -1 < IZR (k - 10 * z) < 1).
    { rewrite minus_IZR, mult_IZR. unfold Rabs in H. destruct (Rcase_abs _) in H; lra. }
    destruct A as (A1 & A2). apply lt_IZR in A1. apply lt_IZR in A2. lia. }
  subst k. rewrite mult_IZR. lra.
Qed.

Definition seven_years : list R := [2000; 2000; 2000; 2000; 2000; 2000; 2000].
Definition seven_mags : list R := [5; 5; 5; 5; 5; 5; 6].

Lemma seven_returns : exists fuel b sb a sa,
  @recurrence_analysis ROps fuel seven_years seven_mags [(2000, 5)] 1 "Weichert" 5 1 = Ok (b, sb, a, sa).
Proof.
  destruct (C39_proof seven_years seven_mags [(2000, 5)] 1 1 ltac:(lra) ltac:(lra) ltac:(discriminate) eq_refl ltac:(discriminate))
    as (rm & ymin & ymax & mmin & n & cent & tper & nobs & RM & YM & YX & MM & PREP & LC & LT & LN & RANGE & (mt & MT & TOP) & BINS).
  change (@T ROps) with R in *.
  assert (RE : rm = seven_mags).
  { unfold seven_mags in *. repeat match goal with H : Forall2 tenth (_ :: _) _ |- _ => inversion H; clear H; subst end.
    match goal with H : Forall2 tenth [] _ |- _ => inversion H; clear H; subst end.
    repeat match goal with H : tenth _ _ |- _ => apply tenth_whole in H end. congruence. }
  subst rm.
  assert (YE : forall y, In y seven_years -> y = 2000) by (intros y I; simpl in I; repeat (destruct I as [<-|I]; auto); contradiction).
  assert (Y1 := YE _ (proj1 YM)). assert (Y2 := YE _ (proj1 YX)). subst ymin ymax.
  assert (M1 : mmin = 5).
  { destruct MM as (I & L). assert (L5 := L 5 ltac:(simpl; auto)). simpl in I. repeat (destruct I as [<-|I]; [lra|]). contradiction. }
  subst mmin.
  assert (N2 : n = 2%nat).
  { assert (R6 := RANGE 6 ltac:(simpl; tauto)). assert (mt <= 6) by (simpl in MT; repeat (destruct MT as [<-|MT]; [lra|]); contradiction).
    assert (A : 1 < INR n < 5 / 2) by lra. destruct n as [|[|[|n]]]; auto; exfalso; [simpl in A; lra|simpl in A; lra|].
    rewrite !S_INR in A. assert (B := pos_INR n). lra. }
  rewrite N2 in LC, LT, LN, BINS. clear N2.
  destruct (BINS 0%nat ltac:(lia)) as (C0 & K0 & cy0 & (k0 & cm0 & R0 & _) & T0).
  destruct (BINS 1%nat ltac:(lia)) as (C1 & K1 & cy1 & (k1 & cm1 & R1 & _) & T1). clear BINS.
  assert (cy0 = 2000) by (apply nth_error_In in R0; destruct R0 as [R0|[]]; congruence).
  assert (cy1 = 2000) by (apply nth_error_In in R1; destruct R1 as [R1|[]]; congruence). subst cy0 cy1.
  assert (CE : cent = [11 / 2; 13 / 2]).
  { destruct cent as [|a [|b [|c l]]]; try discriminate LC. cbn [nth_error] in C0, C1.
    apply (f_equal (fun o => match o with Some v => v | None => 0 end)) in C0. apply (f_equal (fun o => match o with Some v => v | None => 0 end)) in C1.
    simpl in C0, C1. apply (f_equal2 cons); [lra|apply (f_equal2 cons); [lra|reflexivity]]. }
  assert (TE : tper = [1; 1]).
  { destruct tper as [|a [|b [|c l]]]; try discriminate LT. cbn [nth_error] in T0, T1. 
    apply (f_equal (fun o => match o with Some v => v | None => 0 end)) in T0. apply (f_equal (fun o => match o with Some v => v | None => 0 end)) in T1.
    simpl in T0, T1. apply (f_equal2 cons); [lra|apply (f_equal2 cons); [lra|reflexivity]]. }
  assert (CI : forall i m, counts_in 2000 1 5 1 [(2000, 5)] i (2000, m) = bin_of 5 1 i m).
  { intros i m. unfold counts_in. cbn [fst snd forallb]. assert (F : Rltb (5 + INR i * 1) 5 = false).
    { apply Rltb_false. assert (P := pos_INR i). lra. }
    rewrite F, andb_false_r. cbn. apply andb_true_r. }
  assert (B5 : bin_of 5 1 0 5 = true /\ bin_of 5 1 0 6 = false /\ bin_of 5 1 1 5 = false /\ bin_of 5 1 1 6 = true).
  { unfold bin_of. simpl INR.
    repeat split; try (apply andb_true_iff; split; [apply Rleb_true; lra|apply Rltb_true; lra]).
    - apply andb_false_iff. right. apply Rltb_false. lra.
    - apply andb_false_iff. left. apply Rleb_false. lra. }
  destruct B5 as (B1 & B2 & B3 & B4).
  assert (NE : nobs = [6; 1]%nat).
  { destruct nobs as [|a [|b [|c l]]]; try discriminate LN. cbn [nth_error] in K0, K1.
    unfold seven_years, seven_mags, count in K0, K1. cbn [combine filter] in K0, K1. rewrite !CI, B1, B2 in K0. rewrite !CI, B3, B4 in K1.
    cbn in K0, K1. congruence. }
  destruct (six_one_best (1 / 100000) 5 ltac:(lra)) as (fuel & [[[b sb] a] sa] & W).
  exists fuel, b, sb, a, sa.
  rewrite (proj1 (C43_proof ROps fuel seven_years seven_mags [(2000, 5)] 1 "Weichert"%string 5 1) eq_refl).
  assert (E32 : @lit ROps 15 10 = 3 / 2) by (change (15 / 10 = 3 / 2); lra).
  rewrite PREP, CE, TE, NE, E32. etransitivity; [|exact W].
  change (map (@ofnat ROps) [6; 1]%nat) with [6; 1]. reflexivity.
Qed.
