(** decimal_year on doubles (C124). *)
From Coq Require Import ZArith Bool List Lia Reals Lra.
From Coq Require Import Floats.SpecFloat.
From Flocq Require Import Core IEEE754.BinarySingleNaN Relative.
From Verif Require Import Base Ops FloatOps PyFloat PyDecimal PyNearest FReal FInt FNear CatUtil CalendarSpec GeoProofs.
Import ListNotations.
Local Open Scope R_scope.

Local Instance Hprec : FLX.Prec_gt_0 prec64 := eq_refl _.
Local Instance Hmax : Prec_lt_emax prec64 emax64 := eq_refl _.
Local Instance Hp53 : FLX.Prec_gt_0 53 := eq_refl _.
Local Instance fexp64_valid : Valid_exp fexp64 := FLT_exp_valid (-1074) 53.

(** The number of days before a date in its year. *)
Definition day_number (m d : Z) : Z := (days_before_nat (Z.to_nat (m - 1)) + d - 1)%Z.

Lemma day_bound : forall m d, (1 <= m <= 12)%Z -> (1 <= d <= 31)%Z -> (0 <= day_number m d <= 364)%Z.
Proof. intros m d M D. unfold day_number. assert (B := days_before_bound m M). lia. Qed.

Definition year_number (y c : Z) : R := rnd (IZR y + rnd (IZR c / 365)).

Lemma marker_index : forall lm m, (1 <= m <= 12)%Z ->
  @py_index (@T (FOps lm)) (@marker (FOps lm)) (@toZ (FOps lm) (@sub (FOps lm) (F_ofZ m) (F_ofZ 1)))
  = Ok (F_ofZ (days_before_nat (Z.to_nat (m - 1)))).
Proof.
  intros lm m H. assert (C : (m = 1 \/ m = 2 \/ m = 3 \/ m = 4 \/ m = 5 \/ m = 6 \/ m = 7 \/ m = 8 \/ m = 9
    \/ m = 10 \/ m = 11 \/ m = 12)%Z) by lia.
  repeat (destruct C as [->|C]; [vm_compute; reflexivity|]). subst. vm_compute. reflexivity.
Qed.

Lemma part_bound : forall c, (0 <= c <= 364)%Z -> 0 <= IZR c / 365 <= 364 / 365.
Proof. intros c (A & B). apply IZR_le in A, B. lra. Qed.

Lemma year_bound : forall y c, (Z.abs y <= 1000000)%Z -> (0 <= c <= 364)%Z ->
  Rabs (IZR y + rnd (IZR c / 365)) <= 2000000 /\ Rabs (year_number y c - (IZR y + IZR c / 365)) <= 6 / 10000000000.
Proof.
  intros y c Y C. assert (P := part_bound c C).
  assert (N := rnd_near (IZR c / 365) ltac:(apply Rabs_le; lra)).
  assert (AY : Rabs (IZR y) <= 1000000) by (rewrite <- abs_IZR; now apply IZR_le).
  assert (B : Rabs (IZR y + rnd (IZR c / 365)) <= 2000000).
  { replace (IZR y + rnd (IZR c / 365)) with (IZR y + ((rnd (IZR c / 365) - IZR c / 365) + IZR c / 365)) by ring.
    eapply Rle_trans; [apply Rabs_triang|].
    assert (Rabs ((rnd (IZR c / 365) - IZR c / 365) + IZR c / 365) <= 2); [|lra].
    eapply Rle_trans; [apply Rabs_triang|]. rewrite (Rabs_pos_eq (IZR c / 365)) by lra. lra. }
  split; auto. assert (M := rnd_near _ B). unfold year_number.
  replace (rnd (IZR y + rnd (IZR c / 365)) - (IZR y + IZR c / 365))
    with ((rnd (IZR y + rnd (IZR c / 365)) - (IZR y + rnd (IZR c / 365))) + (rnd (IZR c / 365) - IZR c / 365)) by ring.
  eapply Rle_trans; [apply Rabs_triang|]. lra.
Qed.

Lemma year_float : forall lm y m d, (Z.abs y <= 1000000)%Z -> (1 <= m <= 12)%Z -> (1 <= d <= 31)%Z ->
  exists x, @decimal_year1 (FOps lm) (F_ofZ y) (F_ofZ m) (F_ofZ d) = Ok x /\ finite64 x /\ val x = year_number y (day_number m d).
Proof.
  intros lm y m d Y M D. unfold decimal_year1. cbv zeta.
  change (@ofZ (FOps lm)) with F_ofZ. rewrite (marker_index lm m M). cbn [bind]. eexists. split; [reflexivity|].
  assert (BD := days_before_bound m M). assert (C := day_bound m d M D). unfold day_number in *.
  set (k := days_before_nat (Z.to_nat (m - 1))) in *.
  assert (S1 := half_add _ _ _ _ (half_ofZ k ltac:(lia)) (half_ofZ d ltac:(lia)) ltac:(lia)).
  assert (S2 := half_sub _ _ _ _ S1 (half_ofZ 1 ltac:(lia)) ltac:(lia)).
  destruct S2 as (FC & VC). destruct (ofZ_real 365 ltac:(lia)) as (F365 & V365). destruct (ofZ_real y ltac:(lia)) as (FY & VY).
  assert (EC : val (SFsub prec64 emax64 (SFadd prec64 emax64 (F_ofZ k) (F_ofZ d)) (F_ofZ 1)) / val (F_ofZ 365) = IZR (k + d - 1) / 365).
  { rewrite VC, V365. replace (2 * k + 2 * d - 2 * 1)%Z with (2 * (k + d - 1))%Z by lia. rewrite mult_IZR. lra. }
  assert (P := part_bound _ C).
  destruct (div_real _ _ FC F365) as (FD & VD).
  { rewrite V365. lra. } { rewrite EC. apply small_real. apply Rabs_le. lra. }
  rewrite EC in VD. destruct (year_bound y (k + d - 1) Y C) as (B & _).
  destruct (add_real _ _ FY FD) as (FX & VX).
  { rewrite VY, VD. now apply small_real. }
  rewrite VY, VD in VX. exact (conj FX VX).
Qed.

Lemma year_range : forall y c, (Z.abs y <= 1000000)%Z -> (0 <= c <= 364)%Z -> IZR y <= year_number y c < IZR y + 1.
Proof.
  intros y c Y C. destruct (year_bound y c Y C) as (_ & B). assert (P := part_bound c C). split.
  - unfold year_number. rewrite <- (rnd_id y) at 1 by lia. apply round_le; auto with typeclass_instances.
    assert (0 <= rnd (IZR c / 365)); [|lra]. rewrite <- (rnd_id 0) by lia. apply round_le; auto with typeclass_instances. lra.
  - apply Rabs_le_inv in B. lra.
Qed.

Lemma year_mono : forall y c y' c', (Z.abs y <= 1000000)%Z -> (0 <= c <= 364)%Z -> (Z.abs y' <= 1000000)%Z -> (0 <= c' <= 364)%Z ->
  (365 * y + c < 365 * y' + c')%Z -> year_number y c + 1 / 366 < year_number y' c'.
Proof.
  intros y c y' c' Y C Y' C' L. destruct (year_bound y c Y C) as (_ & B). destruct (year_bound y' c' Y' C') as (_ & B').
  assert (G : IZR (365 * y + c + 1) <= IZR (365 * y' + c')) by (apply IZR_le; lia). rewrite !plus_IZR, !mult_IZR in G.
  apply Rabs_le_inv in B, B'. lra.
Qed.

Lemma date_number : forall y m d y' m' d', valid_date y m d -> valid_date y' m' d' -> date_lt y m d y' m' d' ->
  (365 * y + day_number m d <= 365 * y' + day_number m' d')%Z /\
  ((m <> 2 \/ d <> 29)%Z -> (365 * y + day_number m d < 365 * y' + day_number m' d')%Z).
Proof.
  intros y m d y' m' d' V V' L.
  destruct (C27_order y m d y' m' d' _ _ V V' L (decimal_year_value _ _ _ (proj1 V)) (decimal_year_value _ _ _ (proj1 V'))) as (A & B).
  assert (E : forall y m d, IZR y + (IZR (days_before_nat (Z.to_nat (m - 1))) + IZR d - 1) / 365 = IZR (365 * y + day_number m d) / 365).
  { intros. unfold day_number. rewrite plus_IZR, mult_IZR, minus_IZR, plus_IZR. field. }
  rewrite !E in *. split.
  - apply le_IZR. lra.
  - intros Q. apply lt_IZR. specialize (B Q). lra.
Qed.

Lemma days_31 : forall y m, (days_in_month y m <= 31)%Z.
Proof.
  intros y m. unfold days_in_month. destruct m as [|p|p]; try lia. 
  do 4 (try (destruct p as [p|p|]; try lia)); destruct (leap y); lia.
Qed.

Theorem C124_order_proof : forall lm y m d y' m' d' x x',
  (Z.abs y <= 1000000)%Z -> (Z.abs y' <= 1000000)%Z ->
  valid_date y m d -> valid_date y' m' d' -> date_lt y m d y' m' d' ->
  @decimal_year1 (FOps lm) (F_ofZ y) (F_ofZ m) (F_ofZ d) = Ok x ->
  @decimal_year1 (FOps lm) (F_ofZ y') (F_ofZ m') (F_ofZ d') = Ok x' ->
  SFleb x x' = true /\ ((m <> 2 \/ d <> 29)%Z -> SFltb x x' = true).
Proof.
  intros lm y m d y' m' d' x x' Y Y' V V' L HX HX'.
  assert (D1 : (1 <= d <= 31)%Z) by (destruct V as (_ & V); assert (Q := days_31 y m); lia).
  assert (D2 : (1 <= d' <= 31)%Z) by (destruct V' as (_ & V'); assert (Q := days_31 y' m'); lia).
  destruct (year_float lm y m d Y (proj1 V) D1) as (a & A1 & A2 & A3).
  destruct (year_float lm y' m' d' Y' (proj1 V') D2) as (b & B1 & B2 & B3).
  assert (x = a) by congruence. assert (x' = b) by congruence. subst x x'. clear HX HX' A1 B1.
  destruct (date_number _ _ _ _ _ _ V V' L) as (N1 & N2).
  assert (C := day_bound m d (proj1 V) D1). assert (C' := day_bound m' d' (proj1 V') D2).
  assert (M := year_mono y _ y' _ Y C Y' C'). split.
  - rewrite (leb_real a b A2 B2). apply Rle_bool_true. rewrite A3, B3.
    destruct (Z.eq_dec (365 * y + day_number m d) (365 * y' + day_number m' d')) as [E|E].
    + assert (EY : y = y') by lia. assert (EC : day_number m d = day_number m' d') by lia. rewrite EY, EC. lra.
    + specialize (M ltac:(lia)). lra.
  - intros Q. rewrite (ltb_real a b A2 B2). apply Rlt_bool_true. rewrite A3, B3. specialize (M (N2 Q)). lra.
Qed.

Theorem C124_range_proof : forall lm y m d, (Z.abs y <= 1000000)%Z -> (1 <= m <= 12)%Z -> (1 <= d <= 31)%Z ->
  exists x r, @decimal_year1 (FOps lm) (F_ofZ y) (F_ofZ m) (F_ofZ d) = Ok x /\
    @decimal_year1 ROps (IZR y) (IZR m) (IZR d) = Ok r /\
    SFleb (F_ofZ y) x = true /\ SFltb x (F_ofZ (y + 1)) = true /\
    is_finite_SF x = true /\ Rabs (SF2R radix2 x - r) <= 1 / 1000000000.
Proof.
  intros lm y m d Y M D. destruct (year_float lm y m d Y M D) as (x & X1 & X2 & X3).
  assert (C := day_bound m d M D). assert (RG := year_range y _ Y C). destruct (year_bound y _ Y C) as (_ & B).
  exists x. eexists. split; [exact X1|]. split; [apply decimal_year_value; auto|].
  destruct (ofZ_real y ltac:(lia)) as (F1 & V1). destruct (ofZ_real (y + 1) ltac:(lia)) as (F2 & V2).
  split; [rewrite (leb_real _ _ F1 X2), V1, X3; apply Rle_bool_true; lra|].
  split; [rewrite (ltb_real _ _ X2 F2), V2, X3, plus_IZR; apply Rlt_bool_true; lra|].
  split; [exact (proj2 X2)|]. rewrite X3. 
  assert (E : IZR y + (IZR (days_before_nat (Z.to_nat (m - 1))) + IZR d - 1) / 365 = IZR y + IZR (day_number m d) / 365).
  { unfold day_number. rewrite minus_IZR, plus_IZR. field. }
  change (Rabs (year_number y (day_number m d) - (IZR y + (IZR (days_before_nat (Z.to_nat (m - 1))) + IZR d - 1) / 365)) <= 1 / 1000000000).
  rewrite E. lra.
Qed.
