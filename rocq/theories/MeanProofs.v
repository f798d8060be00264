(** Proofs about Weichert's b-value and the mean magnitude (C137). *)
From Coq Require Import String ZArith Arith Bool List Lia Reals Lra.
From Verif Require Import Base Ops BaseFacts RFacts SteppSpec Recurrence RecurrenceSpec SteppProofs
  RecurrenceProofs WeichertProofs WeichertNewton WeichertLocal WeichertGlobal MeanSpec.
Import ListNotations.
Local Open Scope R_scope.

Lemma abs_inv : forall x y, Rabs x <= y -> - y <= x <= y.
Proof. intros x y. unfold Rabs. destruct (Rcase_abs x); lra. Qed.

(** The expected mean magnitude falls at most by (hi - lo)^2 / 4 per unit of beta. *)
Lemma wmu_falls : forall bins lo hi a b, durations_positive bins -> bins <> [] -> mags_within lo hi bins -> a <= b ->
  wmu bins a - wmu bins b <= (hi - lo) * (hi - lo) / 4 * (b - a).
Proof.
  intros bins lo hi a b P NE MW H. destruct (Req_dec a b) as [->|D]; [lra|].
  destruct (dL_mvt bins 1 0 a b P NE) as (c & E & _); [lra|]. unfold dL, d2L in E.
  assert (B := bhatia_davis bins c lo hi P NE MW).
  assert (X : wvar bins c <= (hi - lo) * (hi - lo) / 4).
  { set (m := wmu bins c) in *. assert (0 <= (hi + lo - 2 * m) * (hi + lo - 2 * m)) by apply Rle_0_sqr. nra. }
  assert (wvar bins c * (b - a) <= (hi - lo) * (hi - lo) / 4 * (b - a)) by (apply Rmult_le_compat_r; lra). lra.
Qed.

(** The other direction. *)
Lemma wmu_orders : forall bins lo hi a b, durations_positive bins -> (exists p q, In p bins /\ In q bins /\ snd p <> snd q) ->
  mags_within lo hi bins -> wmu bins b <= wmu bins a -> a <= b /\ 4 * (wmu bins a - wmu bins b) <= (hi - lo) * (hi - lo) * (b - a).
Proof.
  intros bins lo hi a b P TD MW H. assert (NE := bins_ne bins TD).
  assert (L : a <= b).
  { apply Rnot_lt_le. intros X. assert (Y := dL_decreasing bins 1 0 P TD Rlt_0_1 b a X). unfold dL in Y. lra. }
  split; auto. assert (X := wmu_falls bins lo hi a b P NE MW L). lra.
Qed.

(** What a returned b-value is near to: the beta at which the expected mean is the observed one. *)
Lemma returned_mean : forall fuel (tper fmag nobs : list R) f0 f1 rest lo hi mrate beta itstab b sb a sa,
  fmag = f0 :: f1 :: rest -> f0 <> f1 ->
  length tper = length fmag -> (forall t, In t tper -> 0 < t) -> 0 < Rsum nobs ->
  (forall m, In m fmag -> lo <= m <= hi) -> (hi - lo) * itstab <= 3 / 10 ->
  @weichert ROps fuel tper fmag nobs mrate beta itstab = Ok (b, sb, a, sa) ->
  exists best, wmu (combine tper fmag) best = mean_of nobs fmag /\ Rabs (b * ln 10 - best) <= itstab.
Proof.
  intros fuel tper fmag nobs f0 f1 rest lo hi mrate beta itstab b sb a sa EF D LE TP NP MW HT H.
  set (bins := combine tper fmag) in *.
  assert (P : durations_positive bins). { intros [t m] I. apply in_combine_l in I. simpl. auto. }
  assert (TD := two_bins_distinct tper fmag f0 f1 rest LE EF D). fold bins in TD.
  assert (MB : mags_within lo hi bins). { intros [t m] I. apply in_combine_r in I. simpl. auto. }
  assert (LH : lo <= hi). { destruct TD as (p & _ & I & _). destruct (MB p I). lra. }
  assert (L10 := ln10_pos). assert (NE := bins_ne bins TD).
  unfold weichert in H. rewrite EF in H. rewrite <- EF in H.
  apply loop_ok in H; auto. destruct H as (beta0 & ST & R). fold bins in ST.
  unfold weichert_result in R. fold bins in R. cbv zeta in R.
  destruct (step_accuracy bins (Rsum nobs) (Rsum (map2 Rmult nobs fmag)) lo hi beta0 P TD NP MB) as (best & B1 & B2).
  { eapply Rle_trans; [|exact HT]. apply Rmult_le_compat_l; [lra|exact ST]. }
  injection R. intros _ _ _ Rd. clear R. exists best. split.
  - unfold dL in B1. unfold mean_of. apply (Rmult_eq_reg_l (Rsum nobs)); [|lra].
    unfold Rdiv. rewrite (Rmult_comm _ (/ _)), <- Rmult_assoc, Rinv_r by lra. lra.
  - rewrite Rd. match goal with |- Rabs (?x / ln 10 * ln 10 - _) <= _ => replace (x / ln 10 * ln 10) with x by (field; lra) end. lra.
Qed.

Lemma C137_proof : forall fuel1 fuel2 (tper fmag nobs1 nobs2 : list R) f0 f1 rest lo hi mrate1 mrate2 beta1 beta2 itstab
    b1 sb1 a1 sa1 b2 sb2 a2 sa2,
  fmag = f0 :: f1 :: rest -> f0 <> f1 ->
  length tper = length fmag -> (forall t, In t tper -> 0 < t) -> 0 < Rsum nobs1 -> 0 < Rsum nobs2 ->
  (forall m, In m fmag -> lo <= m <= hi) -> (hi - lo) * itstab <= 3 / 10 ->
  @weichert ROps fuel1 tper fmag nobs1 mrate1 beta1 itstab = Ok (b1, sb1, a1, sa1) ->
  @weichert ROps fuel2 tper fmag nobs2 mrate2 beta2 itstab = Ok (b2, sb2, a2, sa2) ->
  mean_of nobs1 fmag <= mean_of nobs2 fmag ->
  b2 * ln 10 + 4 * (mean_of nobs2 fmag - mean_of nobs1 fmag) / ((hi - lo) * (hi - lo)) <= b1 * ln 10 + 2 * itstab.
Proof.
  intros fuel1 fuel2 tper fmag nobs1 nobs2 f0 f1 rest lo hi mrate1 mrate2 beta1 beta2 itstab
    b1 sb1 a1 sa1 b2 sb2 a2 sa2 EF D LE TP N1 N2 MW HT H1 H2 M.
  destruct (returned_mean fuel1 tper fmag nobs1 f0 f1 rest lo hi mrate1 beta1 itstab b1 sb1 a1 sa1) as (e1 & X1 & Y1); auto.
  destruct (returned_mean fuel2 tper fmag nobs2 f0 f1 rest lo hi mrate2 beta2 itstab b2 sb2 a2 sa2) as (e2 & X2 & Y2); auto.
  assert (P : durations_positive (combine tper fmag)). { intros [t m] I. apply in_combine_l in I. simpl. auto. }
  assert (TD := two_bins_distinct tper fmag f0 f1 rest LE EF D).
  assert (MB : mags_within lo hi (combine tper fmag)). { intros [t m] I. apply in_combine_r in I. simpl. auto. }
  assert (LH : lo < hi).
  { assert (I0 : In f0 fmag) by (rewrite EF; simpl; auto). assert (I1 : In f1 fmag) by (rewrite EF; simpl; auto).
    apply MW in I0. apply MW in I1. lra. }
  destruct (wmu_orders (combine tper fmag) lo hi e2 e1 P TD MB) as (O1 & O2); [lra|].
  rewrite X1, X2 in O2.
  assert (Q : 4 * (mean_of nobs2 fmag - mean_of nobs1 fmag) / ((hi - lo) * (hi - lo)) <= e1 - e2).
  { apply (Rmult_le_reg_r ((hi - lo) * (hi - lo))); [nra|]. unfold Rdiv. rewrite Rmult_assoc, Rinv_l by nra. lra. }
  apply abs_inv in Y1. apply abs_inv in Y2. lra.
Qed.

(** At beta 0 the expected mean is the mean over the durations. *)
Lemma wmu_zero : forall tper fmag : list R, length tper = length fmag -> wmu (combine tper fmag) 0 = mean_of tper fmag.
Proof.
  intros tper fmag L. unfold wmu, mean_of, wmom. f_equal.
  - f_equal. revert fmag L. induction tper as [|t tper IH]; intros [|m fmag] L; try discriminate; auto.
    cbn [combine map map2 fst snd]. rewrite IH by (injection L as L; exact L).
    f_equal. replace (- 0 * m) with 0 by ring. rewrite exp_0. ring.
  - f_equal. f_equal. revert fmag L. induction tper as [|t tper IH]; intros [|m fmag] L; try discriminate; auto.
    cbn [combine map map2 fst snd]. rewrite IH by (injection L as L; exact L).
    f_equal. replace (- 0 * m) with 0 by ring. rewrite exp_0. ring.
Qed.

Lemma C137_sign_proof : forall fuel (tper fmag nobs : list R) f0 f1 rest lo hi mrate beta itstab b sb a sa,
  fmag = f0 :: f1 :: rest -> f0 <> f1 ->
  length tper = length fmag -> (forall t, In t tper -> 0 < t) -> 0 < Rsum nobs ->
  (forall m, In m fmag -> lo <= m <= hi) -> (hi - lo) * itstab <= 3 / 10 ->
  @weichert ROps fuel tper fmag nobs mrate beta itstab = Ok (b, sb, a, sa) ->
  let d := mean_of tper fmag - mean_of nobs fmag in
  (0 <= d -> 4 * d / ((hi - lo) * (hi - lo)) - itstab <= b * ln 10) /\
  (d <= 0 -> b * ln 10 <= 4 * d / ((hi - lo) * (hi - lo)) + itstab).
Proof.
  intros fuel tper fmag nobs f0 f1 rest lo hi mrate beta itstab b sb a sa EF D LE TP NP MW HT H d.
  destruct (returned_mean fuel tper fmag nobs f0 f1 rest lo hi mrate beta itstab b sb a sa) as (e & X & Y); auto.
  assert (P : durations_positive (combine tper fmag)). { intros [t m] I. apply in_combine_l in I. simpl. auto. }
  assert (TD := two_bins_distinct tper fmag f0 f1 rest LE EF D).
  assert (MB : mags_within lo hi (combine tper fmag)). { intros [t m] I. apply in_combine_r in I. simpl. auto. }
  assert (LH : lo < hi).
  { assert (I0 : In f0 fmag) by (rewrite EF; simpl; auto). assert (I1 : In f1 fmag) by (rewrite EF; simpl; auto).
    apply MW in I0. apply MW in I1. lra. }
  assert (Z := wmu_zero tper fmag LE). apply abs_inv in Y.
  assert (DV : forall x y, x <= (hi - lo) * (hi - lo) * y -> x / ((hi - lo) * (hi - lo)) <= y).
  { intros x y Hx. apply (Rmult_le_reg_r ((hi - lo) * (hi - lo))); [nra|]. unfold Rdiv. rewrite Rmult_assoc, Rinv_l by nra. lra. }
  unfold d. split; intros S.
  - destruct (wmu_orders (combine tper fmag) lo hi 0 e P TD MB) as (O1 & O2); [lra|].
    rewrite X, Z, Rminus_0_r in O2. apply DV in O2. lra.
  - destruct (wmu_orders (combine tper fmag) lo hi e 0 P TD MB) as (O1 & O2); [lra|].
    rewrite X, Z in O2. apply DV in O2.
    replace (4 * (mean_of tper fmag - mean_of nobs fmag) / ((hi - lo) * (hi - lo)))
      with (- (4 * (mean_of nobs fmag - mean_of tper fmag) / ((hi - lo) * (hi - lo)))) by (field; lra). lra.
Qed.

(** Three bins of equal duration with falling counts, and with more events in the upper bins. *)
Lemma C137_case_proof : exists fuel1 fuel2 beta1 beta2 b1 sb1 a1 sa1 b2 sb2 a2 sa2,
  @weichert ROps fuel1 [20; 20; 20] [5; 6; 7] [100; 10; 1] 5 beta1 (1 / 100000) = Ok (b1, sb1, a1, sa1) /\
  @weichert ROps fuel2 [20; 20; 20] [5; 6; 7] [10; 20; 30] 5 beta2 (1 / 100000) = Ok (b2, sb2, a2, sa2) /\
  mean_of [100; 10; 1] [5; 6; 7] = 567 / 111 /\ mean_of [10; 20; 30] [5; 6; 7] = 380 / 60 /\ mean_of [20; 20; 20] [5; 6; 7] = 6.
Proof.
  assert (K : forall x y z, 0 < x -> 0 < y -> 0 < z -> exists fuel beta b sb a sa,
    @weichert ROps fuel [20; 20; 20] [5; 6; 7] [x; y; z] 5 beta (1 / 100000) = Ok (b, sb, a, sa)).
  { intros x y z X Y Z. destruct (C42_partial_proof [20; 20; 20] [5; 6; 7] [x; y; z] 5 7) as (best & _ & delta & DP & G); auto.
    - intros t [<-|[<-|[<-|[]]]]; lra.
    - intros n [<-|[<-|[<-|[]]]]; lra.
    - split; [simpl; auto|]. intros t [<-|[<-|[<-|[]]]]; lra.
    - split; [simpl; auto|]. intros t [<-|[<-|[<-|[]]]]; lra.
    - exists y, 6. simpl. repeat split; auto; lra.
    - exists y, 6. simpl. repeat split; auto; lra.
    - destruct (G best (1 / 100000) 5) as (fuel & b & sb & a & sa & E & _).
      + unfold Rminus. rewrite Rplus_opp_r, Rabs_R0. exact DP.
      + lra.
      + exists fuel, best, b, sb, a, sa. exact E. }
  destruct (K 100 10 1) as (fuel1 & beta1 & b1 & sb1 & a1 & sa1 & E1); try lra.
  destruct (K 10 20 30) as (fuel2 & beta2 & b2 & sb2 & a2 & sa2 & E2); try lra.
  exists fuel1, fuel2, beta1, beta2, b1, sb1, a1, sa1, b2, sb2, a2, sa2. split; [exact E1|]. split; [exact E2|].
  unfold mean_of, Rsum. simpl. repeat split; lra.
Qed.
