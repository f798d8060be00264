(** Proof of C147: Weichert's b-value of a catalogue and its mean magnitude. *)
From Coq Require Import String ZArith Arith Bool List Lia Reals Lra.
From Verif Require Import Base Ops BaseFacts RFacts SteppSpec Recurrence RecurrenceSpec
  SteppProofs RecurrenceProofs WeichertProofs WeichertNewton WeichertLocal WeichertGlobal MeanSpec MeanProofs
  CatalogueSpec CatalogueProofs CatRateSpec CatMeanSpec.
Import ListNotations.
Local Open Scope R_scope.

Lemma zip3_proj : forall ts ms ns, length ms = length ts -> length ns = length ts ->
  map mb_time (zip3 ts ms ns) = ts /\ map mb_mag (zip3 ts ms ns) = ms /\ map mb_n (zip3 ts ms ns) = ns.
Proof.
  induction ts as [|t ts IH]; intros [|m ms] [|n ns] A B; simpl in *; try discriminate; auto.
  destruct (IH ms ns) as (X & Y & Z); try lia. rewrite X, Y, Z. auto.
Qed.

Lemma map2_maps : forall (f g : mbin -> R) l, map2 Rmult (map f l) (map g l) = map (fun x => f x * g x) l.
Proof. intros f g. induction l as [|x l IH]; simpl; auto. rewrite IH. reflexivity. Qed.

Lemma total_sum : forall bins, INR (bins_total bins) = Rsum (map (fun x => INR (mb_n x)) bins).
Proof. induction bins as [|x bins IH]; simpl; auto. rewrite plus_INR. f_equal. exact IH. Qed.

Lemma counted_mean_of : forall bins, counted_mean bins = mean_of (map (fun x => INR (mb_n x)) bins) (map mb_mag bins).
Proof. intros bins. unfold counted_mean, mean_of. rewrite map2_maps, total_sum. reflexivity. Qed.
Lemma time_mean_of : forall bins, time_mean bins = mean_of (map mb_time bins) (map mb_mag bins).
Proof. intros bins. unfold time_mean, mean_of. rewrite map2_maps. reflexivity. Qed.

Definition hypotheses (year mag : list R) (table : list (R * R)) (d_m d_t : R) : Prop :=
  0 < d_m <= 1000 /\ 0 < d_t /\ length mag = length year /\ year <> [] /\ table <> [] /\
  (forall cy cm, In (cy, cm) table -> exists y, In y year /\ cy <= y) /\
  (forall m m', In m mag -> In m' mag -> m - m' <= 10000).

(** The run on the catalogue is a run of weichert on the bins. *)
Lemma catalogue_weichert : forall fuel (year mag : list R) (table : list (R * R)) d_m d_t ref b sb a sa,
  hypotheses year mag table d_m d_t ->
  @recurrence_analysis ROps fuel year mag table d_m "Weichert" ref d_t = Ok (b, sb, a, sa) ->
  exists mmin bins, catalogue_bins year mag table d_m d_t mmin bins /\ (forall x, In x bins -> 0 < mb_time x) /\
    (forall x, In x bins -> mmin + d_m / 2 <= mb_mag x <= mmin + d_m / 2 + centre_range bins d_m) /\
    centre_range bins d_m <= 20000 /\
    (exists f0 f1 rest, map mb_mag bins = f0 :: f1 :: rest /\ f0 <> f1) /\
    @weichert ROps fuel (map mb_time bins) (map mb_mag bins) (map (fun x => INR (mb_n x)) bins) ref (@lit ROps 15 10) (@lit ROps 1 100000)
      = Ok (b, sb, a, sa).
Proof.
  intros fuel year mag table d_m d_t ref b sb a sa ((D0 & D1) & DT & LM & NY & NT & TB & RG) H.
  destruct (C39_proof year mag table d_m d_t D0 DT NY LM NT)
    as (rm & ymin & ymax & mmin & n & cent & tper & nobs & RM & YM & YX & MM & PREP & LC & LT & LN & RANGE & (mt & MT & TOP) & BINS).
  rewrite (proj1 (C43_proof ROps fuel year mag table d_m "Weichert"%string ref d_t) eq_refl) in H.
  rewrite PREP in H.
  change (@T ROps) with R in *.
  set (bins := zip3 tper cent nobs).
  assert (LB : length bins = n) by (unfold bins; rewrite zip3_length; congruence).
  assert (EC : exists f0 f1 rest, cent = f0 :: f1 :: rest).
  { destruct cent as [|f0 [|f1 rest]]; [simpl in H; discriminate|simpl in H; discriminate|eauto]. }
  destruct EC as (f0 & f1 & rest & EC).
  assert (N2 : (2 <= n)%nat) by (rewrite <- LC, EC; simpl; lia).
  assert (TP : forall t, In t tper -> 0 < t).
  { intros t I. apply In_nth_error in I. destruct I as (i & I). assert (LI : (i < n)%nat) by (rewrite <- LT; apply nth_error_Some; congruence).
    destruct (BINS i LI) as (_ & _ & cy & (k & cm & R1 & _) & E). rewrite E in I. injection I as <-.
    destruct (TB cy cm) as (y & Y1 & Y2); [eapply nth_error_In; exact R1|]. assert (y <= ymax) by (apply YX; auto). lra. }
  destruct (zip3_proj tper cent nobs) as (P1 & P2 & P3); try congruence. fold bins in P1, P2, P3.
  assert (BN : forall i x, nth_error bins i = Some x -> (i < n)%nat /\
      (mb_mag x = mmin + (INR i + 1 / 2) * d_m /\
      mb_n x = count (counts_in ymin d_t mmin d_m table i) (combine year rm) /\
      exists cy, time_row table (mmin + INR i * d_m) cy /\ mb_time x = ymax - cy + 1)).
  { intros i x I. assert (LI : (i < n)%nat) by (rewrite <- LB; apply nth_error_Some; congruence). split; [exact LI|].
    destruct (BINS i LI) as (B1 & B2 & cy & B3 & B4).
    assert (Z := zip3_nth tper cent nobs i _ _ _ B4 B1 B2). assert (Q := eq_trans (eq_sym I) Z). injection Q as ->. simpl. eauto. }
  assert (SPAN : INR n * d_m <= 20000).
  { assert (T1 : forall m, In m rm -> exists x, In x mag /\ Rabs (m - x) <= 1 / 20).
    { clear - RM. intros m I. induction RM as [|x r mag rm (_ & T) F IH]; [destruct I|]. destruct I as [<-|I].
      - exists x. simpl. auto.
      - destruct (IH I) as (y & Y & Q). exists y. simpl. auto. }
    destruct (T1 mt MT) as (x1 & X1 & Q1). destruct (T1 mmin (proj1 MM)) as (x2 & X2 & Q2).
    assert (R := RG x1 x2 X1 X2). unfold Rabs in Q1, Q2. destruct (Rcase_abs (mt - x1)), (Rcase_abs (mmin - x2)); lra. }
  exists mmin, bins. split; [|split; [|split; [|split; [|split]]]].
  - exists rm, ymin, ymax. rewrite LB. do 4 (split; [assumption|]). split; [exact N2|]. split; [exact RANGE|]. split; [eauto|]. intros i x I. exact (proj2 (BN i x I)).
  - intros x I. apply TP. rewrite <- P1. now apply in_map.
  - intros x I. apply In_nth_error in I. destruct I as (i & I). destruct (BN i x I) as (LI & -> & _).
    unfold centre_range. rewrite LB. assert (0 <= INR i) by apply pos_INR.
    assert (INR i + 1 <= INR n) by (rewrite <- S_INR; apply le_INR; lia). split; [nra|].
    assert ((INR i + 1) * d_m <= INR n * d_m) by (apply Rmult_le_compat_r; lra). lra.
  - unfold centre_range. rewrite LB. lra.
  - exists f0, f1, rest. rewrite P2. split; [exact EC|].
    destruct (BINS 0%nat ltac:(lia)) as (B0 & _). destruct (BINS 1%nat ltac:(lia)) as (B1 & _). rewrite EC in B0, B1. simpl in B0, B1.
    injection B0 as B0. injection B1 as B1. lra.
  - rewrite P1, P2. rewrite <- H. f_equal. rewrite <- (map_map mb_n INR), P3. apply map_ext. intros k. symmetry. apply ofnat_R.
Qed.

Lemma C147_proof : forall fuel (year mag : list R) (table : list (R * R)) d_m d_t ref b sb a sa,
  0 < d_m <= 1000 -> 0 < d_t -> length mag = length year -> year <> [] -> table <> [] ->
  (forall cy cm, In (cy, cm) table -> exists y, In y year /\ cy <= y) ->
  (forall m m', In m mag -> In m' mag -> m - m' <= 10000) ->
  @recurrence_analysis ROps fuel year mag table d_m "Weichert" ref d_t = Ok (b, sb, a, sa) ->
  exists mmin bins, catalogue_bins year mag table d_m d_t mmin bins /\ (forall x, In x bins -> 0 < mb_time x) /\
    ((0 < bins_total bins)%nat ->
       let d := time_mean bins - counted_mean bins in let w := centre_range bins d_m in
       (0 <= d -> 4 * d / (w * w) - 1 / 100000 <= b * ln 10) /\
       (d <= 0 -> b * ln 10 <= 4 * d / (w * w) + 1 / 100000)).
Proof.
  intros fuel year mag table d_m d_t ref b sb a sa D DT LM NY NT TB RG H.
  destruct (catalogue_weichert fuel year mag table d_m d_t ref b sb a sa) as (mmin & bins & CB & TP & MB & SP & (f0 & f1 & rest & EC & F01) & W); auto.
  { unfold hypotheses. auto 10. }
  exists mmin, bins. split; [exact CB|]. split; [exact TP|]. intros POS d w.
  assert (X := C137_sign_proof fuel (map mb_time bins) (map mb_mag bins) (map (fun x => INR (mb_n x)) bins) f0 f1 rest
    (mmin + d_m / 2) (mmin + d_m / 2 + w) ref (@lit ROps 15 10) (@lit ROps 1 100000) b sb a sa EC F01).
  change (@T ROps) with R in *. cbv zeta in X. rewrite <- time_mean_of, <- counted_mean_of in X. fold d in X.
  replace (mmin + d_m / 2 + w - (mmin + d_m / 2)) with w in X by ring.
  change (@lit ROps 1 100000) with (1 / 100000) in *. apply X.
  - rewrite !map_length. reflexivity.
  - intros t I. apply in_map_iff in I. destruct I as (x & <- & I). auto.
  - rewrite <- total_sum. apply lt_0_INR. exact POS.
  - intros m I. apply in_map_iff in I. destruct I as (x & <- & I). auto.
  - fold w in SP. lra.
  - exact W.
Qed.

(** One completeness period: the mean over the times is the middle of the bins. *)
Lemma Rsum_cons : forall x l, Rsum (x :: l) = x + Rsum l. Proof. reflexivity. Qed.

Lemma equal_times : forall c d bins k m0, (forall x, In x bins -> mb_time x = c) ->
  (forall i x, nth_error bins i = Some x -> mb_mag x = m0 + (INR (k + i) + 1 / 2) * d) ->
  Rsum (map mb_time bins) = INR (length bins) * c /\
  Rsum (map (fun x => mb_time x * mb_mag x) bins) = INR (length bins) * c * (m0 + (INR k + INR (length bins) / 2) * d).
Proof.
  intros c d. induction bins as [|x bins IH]; intros k m0 T M.
  { simpl. unfold Rsum; simpl. split; ring. }
  destruct (IH (S k) m0) as (A & B).
  { intros y I. apply T. now right. }
  { intros i y I. replace (S k + i)%nat with (k + S i)%nat by lia. apply M. exact I. }
  cbn [map length]. rewrite !Rsum_cons, A, B, (T x (or_introl eq_refl)), (M 0%nat x eq_refl). rewrite Nat.add_0_r, !S_INR.
  split; [ring|field].
Qed.

Lemma C147_one_period_proof : forall fuel (year mag : list R) cy cm d_m d_t ref b sb a sa,
  0 < d_m <= 1000 -> 0 < d_t -> length mag = length year -> (exists y, In y year /\ cy <= y) ->
  (forall m m', In m mag -> In m' mag -> m - m' <= 10000) ->
  @recurrence_analysis ROps fuel year mag [(cy, cm)] d_m "Weichert" ref d_t = Ok (b, sb, a, sa) ->
  exists mmin bins, catalogue_bins year mag [(cy, cm)] d_m d_t mmin bins /\
    ((0 < bins_total bins)%nat ->
       let d := mmin + INR (length bins) * d_m / 2 - counted_mean bins in let w := centre_range bins d_m in
       (0 <= d -> 4 * d / (w * w) - 1 / 100000 <= b * ln 10) /\
       (d <= 0 -> b * ln 10 <= 4 * d / (w * w) + 1 / 100000)).
Proof.
  intros fuel year mag cy cm d_m d_t ref b sb a sa D DT LM (y & Y1 & Y2) RG H.
  destruct (C147_proof fuel year mag [(cy, cm)] d_m d_t ref b sb a sa D DT LM) as (mmin & bins & CB & TP & R); auto.
  { intros ->. destruct Y1. }
  { discriminate. }
  { intros cy' cm' [E|[]]. injection E as <- <-. eauto. }
  exists mmin, bins. split; [exact CB|]. intros POS. specialize (R POS).
  destruct CB as (rm & ymin & ymax & RM & YM & YX & MM & N2 & RA & TOP & BN).
  assert (Q : cy <= ymax) by (assert (y <= ymax) by (apply YX; auto); lra).
  assert (NP : 2 <= INR (length bins)) by (apply le_INR in N2; simpl in N2; exact N2).
  destruct (equal_times (ymax - cy + 1) d_m bins 0 mmin) as (A & B).
  { intros x I. apply In_nth_error in I. destruct I as (i & I). destruct (BN i x I) as (_ & _ & c & (k & m & K & _) & ->).
    apply nth_error_In in K. destruct K as [K|[]]. injection K as <- <-. reflexivity. }
  { intros i x I. exact (proj1 (BN i x I)). }
  assert (TM : time_mean bins = mmin + INR (length bins) * d_m / 2).
  { unfold time_mean. rewrite A, B. simpl (INR 0). field. split; lra. }
  rewrite TM in R. exact R.
Qed.

(** Two catalogues on the same bins. *)
Lemma C147_compare_proof : forall fuel1 fuel2 (year1 mag1 year2 mag2 : list R) (table1 table2 : list (R * R)) d_m d_t1 d_t2 ref1 ref2
    b1 sb1 a1 sa1 b2 sb2 a2 sa2,
  0 < d_m <= 1000 -> 0 < d_t1 -> 0 < d_t2 -> length mag1 = length year1 -> length mag2 = length year2 ->
  year1 <> [] -> year2 <> [] -> table1 <> [] -> table2 <> [] ->
  (forall cy cm, In (cy, cm) table1 -> exists y, In y year1 /\ cy <= y) ->
  (forall cy cm, In (cy, cm) table2 -> exists y, In y year2 /\ cy <= y) ->
  (forall m m', In m mag1 -> In m' mag1 -> m - m' <= 10000) ->
  (forall m m', In m mag2 -> In m' mag2 -> m - m' <= 10000) ->
  @recurrence_analysis ROps fuel1 year1 mag1 table1 d_m "Weichert" ref1 d_t1 = Ok (b1, sb1, a1, sa1) ->
  @recurrence_analysis ROps fuel2 year2 mag2 table2 d_m "Weichert" ref2 d_t2 = Ok (b2, sb2, a2, sa2) ->
  exists mmin1 bins1 mmin2 bins2,
    catalogue_bins year1 mag1 table1 d_m d_t1 mmin1 bins1 /\ catalogue_bins year2 mag2 table2 d_m d_t2 mmin2 bins2 /\
    (map mb_time bins1 = map mb_time bins2 -> map mb_mag bins1 = map mb_mag bins2 ->
     (0 < bins_total bins1)%nat -> (0 < bins_total bins2)%nat -> counted_mean bins1 <= counted_mean bins2 ->
     let w := centre_range bins1 d_m in
     b2 * ln 10 + 4 * (counted_mean bins2 - counted_mean bins1) / (w * w) <= b1 * ln 10 + 2 / 100000).
Proof.
  intros fuel1 fuel2 year1 mag1 year2 mag2 table1 table2 d_m d_t1 d_t2 ref1 ref2 b1 sb1 a1 sa1 b2 sb2 a2 sa2
    D DT1 DT2 LM1 LM2 NY1 NY2 NT1 NT2 TB1 TB2 RG1 RG2 H1 H2.
  destruct (catalogue_weichert fuel1 year1 mag1 table1 d_m d_t1 ref1 b1 sb1 a1 sa1) as (mmin1 & bins1 & CB1 & TP1 & MB1 & SP1 & (f0 & f1 & rest & EC & F01) & W1); auto.
  { unfold hypotheses. auto 10. }
  destruct (catalogue_weichert fuel2 year2 mag2 table2 d_m d_t2 ref2 b2 sb2 a2 sa2) as (mmin2 & bins2 & CB2 & _ & _ & _ & _ & W2); auto.
  { unfold hypotheses. auto 10. }
  exists mmin1, bins1, mmin2, bins2. split; [exact CB1|]. split; [exact CB2|]. intros ET EM P1 P2 ME w.
  rewrite <- ET, <- EM in W2. change (@T ROps) with R in *.
  assert (X := C137_proof fuel1 fuel2 (map mb_time bins1) (map mb_mag bins1) (map (fun x => INR (mb_n x)) bins1) (map (fun x => INR (mb_n x)) bins2) f0 f1 rest
    (mmin1 + d_m / 2) (mmin1 + d_m / 2 + w) ref1 ref2 (@lit ROps 15 10) (@lit ROps 15 10) (@lit ROps 1 100000) b1 sb1 a1 sa1 b2 sb2 a2 sa2 EC F01).
  change (@T ROps) with R in *. rewrite <- counted_mean_of in X. rewrite EM, <- counted_mean_of in X.
  replace (mmin1 + d_m / 2 + w - (mmin1 + d_m / 2)) with w in X by ring.
  change (@lit ROps 1 100000) with (1 / 100000) in *. replace (2 / 100000) with (2 * (1 / 100000)) by field. apply X.
  - rewrite <- EM, !map_length. reflexivity.
  - intros t I. apply in_map_iff in I. destruct I as (x & <- & I). auto.
  - rewrite <- total_sum. apply lt_0_INR. exact P1.
  - rewrite <- total_sum. apply lt_0_INR. exact P2.
  - intros m I. rewrite <- EM in I. apply in_map_iff in I. destruct I as (x & <- & I). auto.
  - fold w in SP1. lra.
  - rewrite <- EM. exact W1.
  - rewrite <- EM. exact W2.
  - exact ME.
Qed.

(** The seven events of C127: two bins, six events and one. *)
Lemma seven_exact : forall mmin bins, catalogue_bins seven_years seven_mags [(2000, 5)] 1 1 mmin bins ->
  mmin = 5 /\ length bins = 2%nat /\ bins_total bins = 7%nat /\ counted_mean bins = 11 / 2 + 1 / 7.
Proof.
  intros mmin bins (rm & ymin & ymax & RM & YM & YX & MM & N2 & RG & (mt & MT & TOP) & BN).
  assert (RE : rm = seven_mags).
  { unfold seven_mags in *. repeat match goal with H : Forall2 tenth (_ :: _) _ |- _ => inversion H; clear H; subst end.
    match goal with H : Forall2 tenth [] _ |- _ => inversion H; clear H; subst end.
    repeat match goal with H : tenth _ _ |- _ => apply tenth_whole in H end. congruence. }
  subst rm.
  assert (YE : forall y, In y seven_years -> y = 2000) by (intros y I; simpl in I; repeat (destruct I as [<-|I]; auto); contradiction).
  assert (Y1 := YE _ (proj1 YM)). subst ymin.
  assert (M1 : mmin = 5).
  { destruct MM as (I & L). assert (L5 := L 5 ltac:(simpl; auto)). simpl in I. repeat (destruct I as [<-|I]; [lra|]). contradiction. }
  subst mmin.
  assert (MX : mt <= 6) by (simpl in MT; repeat (destruct MT as [<-|MT]; [lra|]); contradiction).
  assert (LN : length bins = 2%nat).
  { assert (X : INR (length bins) < 3) by lra. replace 3 with (INR 3) in X by (simpl; lra). apply INR_lt in X. lia. }
  destruct bins as [|x [|y [|z bins]]]; try discriminate LN.
  destruct (BN 0%nat x eq_refl) as (Mx & Kx & _). destruct (BN 1%nat y eq_refl) as (My & Ky & _).
  assert (CI : forall i m, 5 <= 5 + INR i * 1 -> counts_in 2000 1 5 1 [(2000, 5)] i (2000, m) = bin_of 5 1 i m).
  { intros i m P. unfold counts_in. cbn [fst snd forallb]. assert (F : Rltb (5 + INR i * 1) 5 = false) by (apply Rltb_false; lra).
    rewrite F, andb_false_r. cbn. apply andb_true_r. }
  assert (B1 : bin_of 5 1 0 5 = true) by (unfold bin_of; simpl INR; apply andb_true_iff; split; [apply Rleb_true; lra|apply Rltb_true; lra]).
  assert (B2 : bin_of 5 1 0 6 = false) by (unfold bin_of; simpl INR; apply andb_false_iff; right; apply Rltb_false; lra).
  assert (B3 : bin_of 5 1 1 5 = false) by (unfold bin_of; simpl INR; apply andb_false_iff; left; apply Rleb_false; lra).
  assert (B4 : bin_of 5 1 1 6 = true) by (unfold bin_of; simpl INR; apply andb_true_iff; split; [apply Rleb_true; lra|apply Rltb_true; lra]).
  assert (I0 : 5 <= 5 + INR 0 * 1) by (simpl; lra). assert (I1 : 5 <= 5 + INR 1 * 1) by (simpl; lra).
  unfold seven_years, seven_mags, count in Kx, Ky. cbn [combine filter] in Kx, Ky.
  rewrite !(CI 0%nat _ I0), B1, B2 in Kx. rewrite !(CI 1%nat _ I1), B3, B4 in Ky. cbn [length] in Kx, Ky.
  split; [reflexivity|]. split; [exact LN|]. cbn [bins_total fold_right]. rewrite Kx, Ky. split; [reflexivity|].
  unfold counted_mean. cbn [map bins_total fold_right]. unfold Rsum. cbn [fold_right]. rewrite Kx, Ky, Mx, My. simpl. field.
Qed.

Lemma seven_b : forall fuel b sb a sa,
  @recurrence_analysis ROps fuel seven_years seven_mags [(2000, 5)] 1 "Weichert" 5 1 = Ok (b, sb, a, sa) -> 10 / 7 - 1 / 100000 <= b * ln 10.
Proof.
  intros fuel b sb a sa H.
  destruct (C147_one_period_proof fuel seven_years seven_mags 2000 5 1 1 5 b sb a sa) as (mmin & bins & CB & R); auto; try lra.
  { exists 2000. simpl. split; auto. lra. }
  { assert (B : forall m, In m seven_mags -> 5 <= m <= 6) by (intros m I; simpl in I; repeat (destruct I as [<-|I]; [lra|]); contradiction).
    intros m m' I I'. apply B in I. apply B in I'. lra. }
  destruct (seven_exact mmin bins CB) as (-> & LN & TOT & CM). rewrite TOT in R. destruct (R ltac:(lia)) as (R1 & _).
  unfold centre_range in R1. rewrite LN, CM in R1. simpl INR in R1. 
  assert (X : 0 <= 5 + (1 + 1) * 1 / 2 - (11 / 2 + 1 / 7)) by lra. specialize (R1 X). lra.
Qed.
