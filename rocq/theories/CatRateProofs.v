(** Proof of C146: Weichert's activity rate of a catalogue. *)
From Coq Require Import String ZArith Arith Bool List Lia Reals Lra.
From Verif Require Import Base Ops BaseFacts RFacts SteppSpec Recurrence RecurrenceSpec
  SteppProofs RecurrenceProofs WeichertProofs WeichertNewton WeichertLocal WeichertGlobal BootProofs CatalogueSpec CatalogueProofs CatRateSpec.
Import ListNotations.
Local Open Scope R_scope.

Lemma zip3_exp : forall ts ms ns beta, length ms = length ts -> length ns = length ts ->
  Rsum (map (fun x => exp (- beta * mb_mag x)) (zip3 ts ms ns)) = Rsum (map (fun m => exp (- beta * m)) ms).
Proof.
  induction ts as [|a ts IH]; intros [|b ms] [|c ns] beta A B; simpl in *; try discriminate; auto. rewrite IH by lia. reflexivity.
Qed.
Lemma zip3_tex : forall ts ms ns beta, length ms = length ts -> length ns = length ts ->
  Rsum (map (expected beta) (zip3 ts ms ns)) = Rsum (map (fun p => fst p * exp (- beta * snd p)) (combine ts ms)).
Proof.
  induction ts as [|a ts IH]; intros [|b ms] [|c ns] beta A B; simpl in *; try discriminate; auto. rewrite IH by lia. reflexivity.
Qed.

Theorem C146_proof : forall fuel (year mag : list R) (table : list (R * R)) d_m d_t ref b sb a sa,
  0 < d_m -> 0 < d_t -> length mag = length year -> year <> [] -> table <> [] ->
  (forall cy cm, In (cy, cm) table -> exists y, In y year /\ cy <= y) -> ref <> 0 ->
  @recurrence_analysis ROps fuel year mag table d_m "Weichert" ref d_t = Ok (b, sb, a, sa) ->
  exists mmin bins, catalogue_bins year mag table d_m d_t mmin bins /\ (forall x, In x bins -> 0 < mb_time x) /\
    ((0 < bins_total bins)%nat -> exists beta, Rabs (b * ln 10 - beta) <= 1 / 100000 /\
       a = yearly bins beta * exp (- (b * ln 10) * (ref - mmin)) /\ sa = a / sqrt (INR (bins_total bins))).
Proof.
  intros fuel year mag table d_m d_t ref b sb a sa D0 DT LM NY NT TB RF H.
  destruct (C39_proof year mag table d_m d_t D0 DT NY LM NT)
    as (rm & ymin & ymax & mmin & n & cent & tper & nobs & RM & YM & YX & MM & PREP & LC & LT & LN & RANGE & (mt & MT & TOP) & BINS).
  rewrite (proj1 (C43_proof ROps fuel year mag table d_m "Weichert"%string ref d_t) eq_refl) in H.
  rewrite PREP in H.
  change (@T ROps) with R in *.
  set (bins := zip3 tper cent nobs).
  assert (LB : length bins = n) by (unfold bins; rewrite zip3_length; congruence).
  assert (EC : exists f0 f1 rest, cent = f0 :: f1 :: rest).
  { destruct cent as [|f0 [|f1 rest]]; [simpl in H; discriminate|simpl in H; discriminate|eauto]. }
  destruct EC as (f0 & f1 & rest & EC).
  assert (N2 : (2 <= n)%nat) by (rewrite <- LC, EC; simpl; lia).
  assert (TP : forall t, In t tper -> 0 < t).
  { intros t I. apply In_nth_error in I. destruct I as (i & I). assert (LI : (i < n)%nat) by (rewrite <- LT; apply nth_error_Some; congruence).
    destruct (BINS i LI) as (_ & _ & cy & (k & cm & R1 & _) & E). rewrite E in I. injection I as <-.
    destruct (TB cy cm) as (y & Y1 & Y2); [eapply nth_error_In; exact R1|]. assert (y <= ymax) by (apply YX; auto). lra. }
  assert (BN : forall i x, nth_error bins i = Some x ->
      (mb_mag x = mmin + (INR i + 1 / 2) * d_m /\
      mb_n x = count (counts_in ymin d_t mmin d_m table i) (combine year rm) /\
      exists cy, time_row table (mmin + INR i * d_m) cy /\ mb_time x = ymax - cy + 1) /\ In (mb_time x) tper).
  { intros i x I. assert (LI : (i < n)%nat) by (rewrite <- LB; apply nth_error_Some; congruence).
    destruct (BINS i LI) as (B1 & B2 & cy & B3 & B4).
    assert (Z := zip3_nth tper cent nobs i _ _ _ B4 B1 B2). assert (Q := eq_trans (eq_sym I) Z). injection Q as ->. simpl.
    split; [eauto|]. eapply nth_error_In; exact B4. }
  exists mmin, bins. split; [|split].
  - exists rm, ymin, ymax. rewrite LB. do 4 (split; [assumption|]). split; [exact N2|]. split; [exact RANGE|]. split; [eauto|]. intros i x I. exact (proj1 (BN i x I)).
  - intros x I. apply In_nth_error in I. destruct I as (i & I). apply TP. exact (proj2 (BN i x I)).
  - intros POS.
    assert (TOT : INR (bins_total bins) = Rsum (map INR nobs)) by (unfold bins; apply zip3_total; congruence).
    assert (NP : 0 < Rsum (map INR nobs)) by (rewrite <- TOT; apply lt_0_INR; exact POS).
    assert (MO : map (@ofnat ROps) nobs = map INR nobs) by (apply map_ext; intros k; apply ofnat_R).
    assert (F01 : f0 = mmin + d_m / 2 /\ f1 = mmin + 3 / 2 * d_m).
    { destruct (BINS 0%nat ltac:(lia)) as (B0 & _). destruct (BINS 1%nat ltac:(lia)) as (B1 & _). rewrite EC in B0, B1. simpl in B0, B1.
      injection B0 as B0. injection B1 as B1. lra. }
    assert (H' : @weichert ROps fuel tper cent (map INR nobs) ref (@lit ROps 15 10) (@lit ROps 1 100000) = Ok (b, sb, a, sa)) by (rewrite <- MO; exact H).
    destruct (C41_proof fuel tper cent (map INR nobs) f0 f1 rest ref (@lit ROps 15 10) (@lit ROps 1 100000) b sb a sa
      EC ltac:(lra) ltac:(congruence) TP NP H') as (L' & beta0 & beta1 & d2 & _ & _ & _ & _ & NEAR & B & _ & _ & RA & SA & _).
    cbv zeta in RA, SA. change (@lit ROps 1 100000) with (1 / 100000) in NEAR.
    destruct (Req_EM_T ref 0) as [|_]; [contradiction|].
    assert (L10 : ln 10 <> 0) by (assert (0 < ln 10) by (rewrite <- ln_1; apply ln_increasing; lra); lra).
    assert (B1 : b * ln 10 = beta1) by (rewrite B; field; exact L10).
    exists beta0. rewrite B1. split; [exact NEAR|]. split; [|rewrite TOT; exact SA].
    rewrite RA. unfold yearly. rewrite TOT. unfold bins. rewrite zip3_exp, zip3_tex by congruence.
    f_equal. f_equal. f_equal. lra.
Qed.

(** The rate lies between the counts over the longest and over the shortest observation time. *)
Lemma yearly_bounds : forall bins beta lo hi, bins <> [] -> 0 < lo -> (forall x, In x bins -> lo <= mb_time x <= hi) ->
  INR (bins_total bins) / hi <= yearly bins beta <= INR (bins_total bins) / lo.
Proof.
  intros bins beta lo hi NE L B.
  set (E := Rsum (map (fun x => exp (- beta * mb_mag x)) bins)). set (S := Rsum (map (expected beta) bins)).
  assert (EP : 0 < E).
  { apply Rsum_pos; [|destruct bins; [contradiction|discriminate]]. intros x I. apply in_map_iff in I. destruct I as (y & <- & _). apply exp_pos. }
  assert (S1 : lo * E <= S).
  { unfold E, S. rewrite <- Rsum_map_scal. apply Rsum_le. intros x I. unfold expected. apply Rmult_le_compat_r; [left; apply exp_pos|]. apply B; auto. }
  assert (S2 : S <= hi * E).
  { unfold E, S. rewrite <- Rsum_map_scal. apply Rsum_le. intros x I. unfold expected. apply Rmult_le_compat_r; [left; apply exp_pos|]. apply B; auto. }
  assert (H : 0 < hi) by (destruct bins as [|x bins]; [contradiction|]; destruct (B x (or_introl eq_refl)); lra).
  assert (SP : 0 < S) by (assert (0 < lo * E) by (apply Rmult_lt_0_compat; auto); lra).
  unfold yearly. fold E S. assert (N := pos_INR (bins_total bins)). unfold Rdiv. rewrite Rmult_assoc. split; apply Rmult_le_compat_l; auto.
  - apply Rmult_le_reg_r with (hi * S); [apply Rmult_lt_0_compat; auto|]. replace (/ hi * (hi * S)) with S by (field; lra).
    replace (E * / S * (hi * S)) with (hi * E) by (field; lra). exact S2.
  - apply Rmult_le_reg_r with (lo * S); [apply Rmult_lt_0_compat; auto|]. replace (/ lo * (lo * S)) with S by (field; lra).
    replace (E * / S * (lo * S)) with (lo * E) by (field; lra). exact S1.
Qed.

(** One completeness year: the counts over that time. *)
Theorem C146_one_period_proof : forall fuel (year mag : list R) cy cm d_m d_t ref b sb a sa,
  0 < d_m -> 0 < d_t -> length mag = length year -> (exists y, In y year /\ cy <= y) -> ref <> 0 ->
  @recurrence_analysis ROps fuel year mag [(cy, cm)] d_m "Weichert" ref d_t = Ok (b, sb, a, sa) ->
  exists mmin bins ymax, catalogue_bins year mag [(cy, cm)] d_m d_t mmin bins /\ is_max ymax year /\
    ((0 < bins_total bins)%nat ->
       a = INR (bins_total bins) / (ymax - cy + 1) * exp (- (b * ln 10) * (ref - mmin)) /\ sa = a / sqrt (INR (bins_total bins))).
Proof.
  intros fuel year mag cy cm d_m d_t ref b sb a sa D DT LM (y & Y1 & Y2) RF H.
  destruct (C146_proof fuel year mag [(cy, cm)] d_m d_t ref b sb a sa D DT LM) as (mmin & bins & CB & TP & R); auto.
  { intros ->. destruct Y1. }
  { discriminate. }
  { intros cy' cm' [E|[]]. injection E as <- <-. eauto. }
  destruct CB as (rm & ymin & ymax & RM & YM & YX & MM & N2 & RG & TOP & BN).
  exists mmin, bins, ymax. split; [exists rm, ymin, ymax; auto 12|]. split; [exact YX|]. intros POS.
  destruct (R POS) as (beta & _ & A & SA). split; [|exact SA].
  assert (Q : cy <= ymax) by (assert (y <= ymax) by (apply YX; auto); lra).
  assert (NE : bins <> []) by (intros ->; simpl in N2; lia).
  destruct (yearly_bounds bins beta (ymax - cy + 1) (ymax - cy + 1) NE) as (U & V).
  { lra. }
  { intros x I. apply In_nth_error in I. destruct I as (i & I). destruct (BN i x I) as (_ & _ & c & (k & m & K & _) & ->).
    apply nth_error_In in K. destruct K as [K|[]]. injection K as <- <-. lra. }
  rewrite A. f_equal. lra.
Qed.

Theorem C146_bounds_proof : forall fuel (year mag : list R) (table : list (R * R)) d_m d_t ref b sb a sa,
  0 < d_m -> 0 < d_t -> length mag = length year -> year <> [] -> table <> [] ->
  (forall cy cm, In (cy, cm) table -> exists y, In y year /\ cy <= y) -> ref <> 0 ->
  @recurrence_analysis ROps fuel year mag table d_m "Weichert" ref d_t = Ok (b, sb, a, sa) ->
  exists mmin bins, catalogue_bins year mag table d_m d_t mmin bins /\
    ((0 < bins_total bins)%nat -> forall lo hi, 0 < lo -> (forall x, In x bins -> lo <= mb_time x <= hi) ->
       INR (bins_total bins) / hi <= a * exp (b * ln 10 * (ref - mmin)) <= INR (bins_total bins) / lo).
Proof.
  intros fuel year mag table d_m d_t ref b sb a sa D DT LM NY NT TB RF H.
  destruct (C146_proof fuel year mag table d_m d_t ref b sb a sa D DT LM NY NT TB RF H) as (mmin & bins & CB & TP & R).
  exists mmin, bins. split; [exact CB|]. intros POS lo hi L B. destruct (R POS) as (beta & _ & A & _).
  assert (NE : bins <> []) by (intros ->; simpl in POS; lia).
  rewrite A, Rmult_assoc, <- exp_plus. replace (- (b * ln 10) * (ref - mmin) + b * ln 10 * (ref - mmin)) with 0 by ring. rewrite exp_0, Rmult_1_r.
  now apply yearly_bounds.
Qed.

(** The seven events of C127. *)
Lemma seven_bins : forall mmin bins, catalogue_bins seven_years seven_mags [(2000, 5)] 1 1 mmin bins -> (6 <= bins_total bins)%nat.
Proof.
  intros mmin bins (rm & ymin & ymax & RM & YM & YX & MM & N2 & RG & TOP & BN).
  assert (RE : rm = seven_mags).
  { unfold seven_mags in *. repeat match goal with H : Forall2 tenth (_ :: _) _ |- _ => inversion H; clear H; subst end.
    match goal with H : Forall2 tenth [] _ |- _ => inversion H; clear H; subst end.
    repeat match goal with H : tenth _ _ |- _ => apply tenth_whole in H end. congruence. }
  subst rm.
  assert (YE : forall y, In y seven_years -> y = 2000) by (intros y I; simpl in I; repeat (destruct I as [<-|I]; auto); contradiction).
  assert (Y1 := YE _ (proj1 YM)). subst ymin.
  assert (M1 : mmin = 5).
  { destruct MM as (I & L). assert (L5 := L 5 ltac:(simpl; auto)). simpl in I. repeat (destruct I as [<-|I]; [lra|]). contradiction. }
  subst mmin.
  destruct bins as [|x bins]; [simpl in N2; lia|]. destruct (BN 0%nat x eq_refl) as (_ & K & _).
  assert (CI : forall m, counts_in 2000 1 5 1 [(2000, 5)] 0 (2000, m) = bin_of 5 1 0 m).
  { intros m. unfold counts_in. cbn [fst snd forallb]. assert (F : Rltb (5 + INR 0 * 1) 5 = false) by (apply Rltb_false; simpl; lra).
    rewrite F, andb_false_r. cbn. apply andb_true_r. }
  assert (B1 : bin_of 5 1 0 5 = true) by (unfold bin_of; simpl INR; apply andb_true_iff; split; [apply Rleb_true; lra|apply Rltb_true; lra]).
  assert (B2 : bin_of 5 1 0 6 = false) by (unfold bin_of; simpl INR; apply andb_false_iff; right; apply Rltb_false; lra).
  unfold seven_years, seven_mags, count in K. cbn [combine filter] in K. rewrite !CI, B1, B2 in K. cbn [length] in K.
  cbn [bins_total fold_right]. rewrite K. lia.
Qed.
