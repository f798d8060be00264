(** Sums, differences and comparisons of doubles as real numbers; whole numbers and halves are exact. *)
From Coq Require Import ZArith Bool List Lia Reals Lra.
From Coq Require Import Floats.SpecFloat.
From Flocq Require Import Core IEEE754.BinarySingleNaN.
From Verif Require Import Base Ops FloatOps PyFloat PyDecimal PyNearest FReal.
Local Open Scope R_scope.

Local Instance Hprec : FLX.Prec_gt_0 prec64 := eq_refl _.
Local Instance Hmax : Prec_lt_emax prec64 emax64 := eq_refl _.
Local Instance Hp53 : FLX.Prec_gt_0 53 := eq_refl _.
Local Instance fexp64_valid : Valid_exp fexp64 := FLT_exp_valid (-1074) 53.

Lemma add_equiv : forall a b : binary_float prec64 emax64, B2SF (Bplus mode_NE a b) = SFadd prec64 emax64 (B2SF a) (B2SF b).
Proof.
  intros [sa|sa| |sa ma ea Ha] [sb|sb| |sb mb eb Hb]; try reflexivity; try (cbn; now destruct (Bool.eqb sa sb)).
  cbn [Bplus B2SF SFadd]. rewrite normalize_equiv. reflexivity.
Qed.

Lemma sub_equiv : forall a b : binary_float prec64 emax64, B2SF (Bminus mode_NE a b) = SFsub prec64 emax64 (B2SF a) (B2SF b).
Proof.
  intros [sa|sa| |sa ma ea Ha] [sb|sb| |sb mb eb Hb]; try reflexivity; try (cbn; now destruct (Bool.eqb sa (negb sb))); try (cbn; now destruct sa, sb).
  cbn [Bminus B2SF SFsub]. rewrite normalize_equiv. unfold Fplus_naive.
  replace (cond_Zopp sa (Z.pos (fst (shl_align ma ea (Z.min ea eb)))) - cond_Zopp sb (Z.pos (fst (shl_align mb eb (Z.min ea eb)))))%Z
    with (cond_Zopp sa (Z.pos (fst (shl_align ma ea (Z.min ea eb)))) + cond_Zopp (negb sb) (Z.pos (fst (shl_align mb eb (Z.min ea eb)))))%Z
    by (destruct sb; unfold cond_Zopp; cbn [negb]; lia).
  reflexivity.
Qed.

Theorem add_real : forall x y, finite64 x -> finite64 y -> Rabs (rnd (val x + val y)) < max64 ->
  finite64 (SFadd prec64 emax64 x y) /\ val (SFadd prec64 emax64 x y) = rnd (val x + val y).
Proof.
  intros x y X Y B. destruct (finite_B x X) as (a & <- & A1 & A2). destruct (finite_B y Y) as (b & <- & B1 & B2).
  rewrite <- A1, <- B1 in *. rewrite <- add_equiv.
  pose proof (Bplus_correct prec64 emax64 _ _ mode_NE a b A2 B2) as C. change (round_mode mode_NE) with ZnearestE in C.
  rewrite Rlt_bool_true in C by exact B. destruct C as (C1 & C2 & _).
  destruct (B_finite _ C2) as (F & V). split; auto. rewrite V. exact C1.
Qed.

Theorem sub_real : forall x y, finite64 x -> finite64 y -> Rabs (rnd (val x - val y)) < max64 ->
  finite64 (SFsub prec64 emax64 x y) /\ val (SFsub prec64 emax64 x y) = rnd (val x - val y).
Proof.
  intros x y X Y B. destruct (finite_B x X) as (a & <- & A1 & A2). destruct (finite_B y Y) as (b & <- & B1 & B2).
  rewrite <- A1, <- B1 in *. rewrite <- sub_equiv.
  pose proof (Bminus_correct prec64 emax64 _ _ mode_NE a b A2 B2) as C. change (round_mode mode_NE) with ZnearestE in C.
  rewrite Rlt_bool_true in C by exact B. destruct C as (C1 & C2 & _).
  destruct (B_finite _ C2) as (F & V). split; auto. rewrite V. exact C1.
Qed.

Lemma ltb_real : forall x y, finite64 x -> finite64 y -> SFltb x y = Rlt_bool (val x) (val y).
Proof.
  intros x y X Y. destruct (finite_B x X) as (a & <- & A1 & A2). destruct (finite_B y Y) as (b & <- & B1 & B2).
  rewrite <- A1, <- B1. exact (Bltb_correct prec64 emax64 a b A2 B2).
Qed.

Lemma leb_real : forall x y, finite64 x -> finite64 y -> SFleb x y = Rle_bool (val x) (val y).
Proof.
  intros x y X Y. destruct (finite_B x X) as (a & <- & A1 & A2). destruct (finite_B y Y) as (b & <- & B1 & B2).
  rewrite <- A1, <- B1. exact (Bleb_correct prec64 emax64 a b A2 B2).
Qed.

(** Halves of whole numbers. *)
Lemma format_half : forall z, (Z.abs z < 2 ^ 53)%Z -> generic_format radix2 fexp64 (IZR z / 2).
Proof.
  intros z H. apply (generic_format_FLT radix2 (-1074) 53).
  apply (FLT_spec radix2 (-1074) 53 _ (Float radix2 z (-1))); [unfold F2R; cbn; lra|cbn [Fnum]; exact H|cbn; lia].
Qed.

Lemma half_small : forall z, (Z.abs z < 2 ^ 53)%Z -> Rabs (IZR z / 2) < max64.
Proof.
  intros z H. apply IZR_lt in H. rewrite abs_IZR, (IZR_pow2 53) in H by lia.
  apply Rle_lt_trans with (Rabs (IZR z)).
  - unfold Rdiv. rewrite Rabs_mult, (Rabs_right (/ 2)) by lra. pose proof (Rabs_pos (IZR z)). lra.
  - eapply Rlt_trans; [exact H|]. apply bpow_lt. lia.
Qed.

(** The double x is the number z/2. *)
Definition half_is (x : spec_float) (z : Z) : Prop := finite64 x /\ val x = IZR z / 2.

Lemma half_ofZ : forall z, (Z.abs z <= 2 ^ 53)%Z -> half_is (F_ofZ z) (2 * z).
Proof. intros z H. destruct (ofZ_real z H) as (F & V). split; auto. rewrite V, mult_IZR. lra. Qed.

Lemma half_add : forall x y a b, half_is x a -> half_is y b -> (Z.abs (a + b) < 2 ^ 53)%Z ->
  half_is (SFadd prec64 emax64 x y) (a + b).
Proof.
  intros x y a b (FX & VX) (FY & VY) H.
  assert (E : val x + val y = IZR (a + b) / 2) by (rewrite VX, VY, plus_IZR; lra).
  assert (RE : rnd (val x + val y) = IZR (a + b) / 2).
  { rewrite E. apply round_generic; [apply valid_rnd_N|now apply format_half]. }
  destruct (add_real x y FX FY) as (F & V); [rewrite RE; now apply half_small|]. split; auto. now rewrite V, RE.
Qed.

Lemma half_sub : forall x y a b, half_is x a -> half_is y b -> (Z.abs (a - b) < 2 ^ 53)%Z ->
  half_is (SFsub prec64 emax64 x y) (a - b).
Proof.
  intros x y a b (FX & VX) (FY & VY) H.
  assert (E : val x - val y = IZR (a - b) / 2) by (rewrite VX, VY, minus_IZR; lra).
  assert (RE : rnd (val x - val y) = IZR (a - b) / 2).
  { rewrite E. apply round_generic; [apply valid_rnd_N|now apply format_half]. }
  destruct (sub_real x y FX FY) as (F & V); [rewrite RE; now apply half_small|]. split; auto. now rewrite V, RE.
Qed.

(** Times a whole number. *)
Lemma half_mul : forall x y a b, half_is x (2 * a) -> half_is y b -> (Z.abs (a * b) < 2 ^ 53)%Z ->
  half_is (SFmul prec64 emax64 x y) (a * b).
Proof.
  intros x y a b (FX & VX) (FY & VY) H.
  assert (E : val x * val y = IZR (a * b) / 2) by (rewrite VX, VY, !mult_IZR; lra).
  assert (RE : rnd (val x * val y) = IZR (a * b) / 2).
  { rewrite E. apply round_generic; [apply valid_rnd_N|now apply format_half]. }
  destruct (mul_real x y FX FY) as (F & V); [rewrite RE; now apply half_small|]. split; auto. now rewrite V, RE.
Qed.

Lemma half_mul_r : forall x y a b, half_is x b -> half_is y (2 * a) -> (Z.abs (a * b) < 2 ^ 53)%Z ->
  half_is (SFmul prec64 emax64 x y) (a * b).
Proof.
  intros x y a b (FX & VX) (FY & VY) H.
  assert (E : val x * val y = IZR (a * b) / 2) by (rewrite VX, VY, !mult_IZR; lra).
  assert (RE : rnd (val x * val y) = IZR (a * b) / 2).
  { rewrite E. apply round_generic; [apply valid_rnd_N|now apply format_half]. }
  destruct (mul_real x y FX FY) as (F & V); [rewrite RE; now apply half_small|]. split; auto. now rewrite V, RE.
Qed.

Lemma half_div1 : forall x a, half_is x a -> (Z.abs a < 2 ^ 53)%Z -> half_is (SFdiv prec64 emax64 x (F_ofZ 1)) a.
Proof.
  intros x a (FX & VX) H. destruct (ofZ_real 1 ltac:(lia)) as (FY & VY).
  assert (E : val x / val (F_ofZ 1) = IZR a / 2) by (rewrite VX, VY; lra).
  assert (RE : rnd (val x / val (F_ofZ 1)) = IZR a / 2).
  { rewrite E. apply round_generic; [apply valid_rnd_N|now apply format_half]. }
  destruct (div_real x (F_ofZ 1) FX FY) as (F & V); [rewrite VY; lra|rewrite RE; now apply half_small|]. split; auto. now rewrite V, RE.
Qed.

Lemma half_ltb : forall x y a b, half_is x a -> half_is y b -> SFltb x y = Z.ltb a b.
Proof.
  intros x y a b (FX & VX) (FY & VY). rewrite (ltb_real x y FX FY), VX, VY.
  destruct (Z.ltb_spec a b) as [L|L].
  - apply Rlt_bool_true. apply IZR_lt in L. lra.
  - apply Rlt_bool_false. apply IZR_le in L. lra.
Qed.

Lemma half_leb : forall x y a b, half_is x a -> half_is y b -> SFleb x y = Z.leb a b.
Proof.
  intros x y a b (FX & VX) (FY & VY). rewrite (leb_real x y FX FY), VX, VY.
  destruct (Z.leb_spec a b) as [L|L].
  - apply Rle_bool_true. apply IZR_le in L. lra.
  - apply Rle_bool_false. apply IZR_lt in L. lra.
Qed.

(** The next whole number above a positive half. *)
Lemma half_ceil : forall x a, half_is x a -> (0 <= a)%Z -> (a < 2 ^ 53)%Z -> F_toZ (F_ceil x) = ((a + 1) / 2)%Z.
Proof.
  intros x a ((V & F) & E) P B. destruct x as [s|s| |s m e]; try discriminate F.
  - cbn [F_ceil F_round F_toZ]. cbn [SF2R] in E. assert (a = 0)%Z by (apply eq_IZR; lra). subst. reflexivity.
  - destruct s.
    { exfalso. cbn [SF2R] in E. assert (X : F2R (Float radix2 (cond_Zopp true (Z.pos m)) e) < 0) by (apply F2R_lt_0; cbn; lia).
      apply IZR_le in P. lra. }
    unfold F_ceil. cbn [F_round]. destruct (F_split m e) as ((q, r), d) eqn:S1. destruct (split_real _ _ _ _ _ S1) as (D & R1 & Q & X).
    cbn [SF2R cond_Zopp] in E. rewrite X in E. clear X S1.
    assert (PD : 0 < IZR d) by (now apply IZR_lt).
    assert (K : (2 * (q * d + r) = a * d)%Z).
    { apply eq_IZR. rewrite !mult_IZR, plus_IZR, mult_IZR. 
      assert (Y : IZR a = 2 * (IZR q + IZR r / IZR d)) by lra. rewrite Y. field. lra. }
    set (w := if (r =? 0)%Z then q else (q + 1)%Z).
    assert (W : w = ((a + 1) / 2)%Z).
    { unfold w. destruct (Z.eqb_spec r 0) as [R0|R0].
      - subst r. assert (a = 2 * q)%Z by nia. subst a. apply Z.div_unique with 1%Z; lia.
      - assert (a = 2 * q + 1)%Z by nia. subst a. apply Z.div_unique with 0%Z; lia. }
    rewrite W. unfold F_int. destruct (Z.eqb_spec ((a + 1) / 2) 0) as [->|N]; [reflexivity|].
    apply toZ_ofZ. assert (0 <= (a + 1) / 2)%Z by (apply Z.div_pos; lia). assert ((a + 1) / 2 <= a + 1)%Z by (apply Z.div_le_upper_bound; lia). lia.
Qed.

Lemma half_fifteen : half_is (SFdiv prec64 emax64 (F_ofZ 15) (F_ofZ 10)) 3.
Proof.
  destruct (ofZ_real 15 ltac:(lia)) as (FX & VX). destruct (ofZ_real 10 ltac:(lia)) as (FY & VY).
  assert (RE : rnd (val (F_ofZ 15) / val (F_ofZ 10)) = IZR 3 / 2).
  { rewrite VX, VY. replace (15 / 10) with (IZR 3 / 2) by lra. apply round_generic; [apply valid_rnd_N|now apply format_half]. }
  destruct (div_real _ _ FX FY) as (F & V); [rewrite VY; lra|rewrite RE; now apply half_small|]. split; auto. now rewrite V, RE.
Qed.
