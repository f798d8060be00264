(** The double operations are the correctly rounded real ones. *)
From Coq Require Import ZArith Bool List Lia Reals Lra.
From Coq Require Import Floats.SpecFloat.
From Flocq Require Import Core IEEE754.BinarySingleNaN Relative.
From Verif Require Import Base Ops FloatOps PyFloat PyDecimal PyNearest.
Local Open Scope R_scope.

Local Instance Hprec : FLX.Prec_gt_0 prec64 := eq_refl _.
Local Instance Hmax : Prec_lt_emax prec64 emax64 := eq_refl _.
Local Instance Hp53 : FLX.Prec_gt_0 53 := eq_refl _.
Local Instance fexp64_valid : Valid_exp fexp64 := FLT_exp_valid (-1074) 53.

(** A double that is a number, and the number it is. *)
Definition finite64 (x : spec_float) : Prop := SpecFloat.valid_binary prec64 emax64 x = true /\ is_finite_SF x = true.
Notation val := (SF2R radix2).
Notation max64 := (bpow radix2 1024).

Lemma finite_B : forall x, finite64 x -> exists b : binary_float prec64 emax64, B2SF b = x /\ B2R b = val x /\ is_finite b = true.
Proof.
  intros x (V & F). exists (SF2B x V). split; [apply B2SF_SF2B|]. split; [apply B2R_SF2B|]. now rewrite is_finite_SF2B.
Qed.

Lemma B_finite : forall b : binary_float prec64 emax64, is_finite b = true -> finite64 (B2SF b) /\ val (B2SF b) = B2R b.
Proof.
  intros b F. split; [split; [apply valid_binary_B2SF|]|].
  - now rewrite is_finite_SF_B2SF.
  - apply SF2R_B2SF.
Qed.

Lemma finite_format : forall x, finite64 x -> generic_format radix2 fexp64 (val x).
Proof. intros x H. destruct (finite_B x H) as (b & <- & E & _). rewrite <- E. apply generic_format_B2R. Qed.

Lemma finite_bounded : forall x, finite64 x -> Rabs (val x) < max64.
Proof. intros x H. destruct (finite_B x H) as (b & <- & E & _). rewrite <- E. apply (abs_B2R_lt_emax prec64 emax64). Qed.

(** Numbers other than zero are the same double when they are the same number. *)
Lemma finite_inj : forall x y, finite64 x -> finite64 y -> val x <> 0 -> val x = val y -> x = y.
Proof.
  intros x y X Y N E. destruct (finite_B x X) as (a & <- & A & _). destruct (finite_B y Y) as (b & <- & B & _). f_equal.
  apply B2R_inj.
  - apply is_finite_strict_B2R. rewrite A. exact N.
  - apply is_finite_strict_B2R. rewrite B, <- E. exact N.
  - now rewrite A, B.
Qed.

Lemma mul_equiv : forall a b : binary_float prec64 emax64, B2SF (Bmult mode_NE a b) = SFmul prec64 emax64 (B2SF a) (B2SF b).
Proof.
  intros [sa|sa| |sa ma ea Ha] [sb|sb| |sb mb eb Hb]; try reflexivity.
  cbn [Bmult B2SF SFmul]. rewrite B2SF_SF2B. symmetry. apply round_aux_equiv.
Qed.

Lemma div_equiv : forall a b : binary_float prec64 emax64, B2SF (Bdiv mode_NE a b) = SFdiv prec64 emax64 (B2SF a) (B2SF b).
Proof.
  intros [sa|sa| |sa ma ea Ha] [sb|sb| |sb mb eb Hb]; try reflexivity.
  cbn [Bdiv B2SF SFdiv]. rewrite B2SF_SF2B. destruct (SFdiv_core_binary _ _ _ _ _ _) as ((mz, ez), lz). symmetry. apply round_aux_equiv.
Qed.

Theorem mul_real : forall x y, finite64 x -> finite64 y -> Rabs (rnd (val x * val y)) < max64 ->
  finite64 (SFmul prec64 emax64 x y) /\ val (SFmul prec64 emax64 x y) = rnd (val x * val y).
Proof.
  intros x y X Y B. destruct (finite_B x X) as (a & <- & A1 & A2). destruct (finite_B y Y) as (b & <- & B1 & B2).
  rewrite <- A1, <- B1 in *. rewrite <- mul_equiv.
  pose proof (Bmult_correct prec64 emax64 _ _ mode_NE a b) as C. change (round_mode mode_NE) with ZnearestE in C.
  rewrite Rlt_bool_true in C by exact B. destruct C as (C1 & C2 & _). rewrite A2, B2 in C2.
  destruct (B_finite _ C2) as (F & V). split; auto. rewrite V. exact C1.
Qed.

Theorem div_real : forall x y, finite64 x -> finite64 y -> val y <> 0 -> Rabs (rnd (val x / val y)) < max64 ->
  finite64 (SFdiv prec64 emax64 x y) /\ val (SFdiv prec64 emax64 x y) = rnd (val x / val y).
Proof.
  intros x y X Y N B. destruct (finite_B x X) as (a & <- & A1 & A2). destruct (finite_B y Y) as (b & <- & B1 & B2).
  rewrite <- A1, <- B1 in *. rewrite <- div_equiv.
  pose proof (Bdiv_correct prec64 emax64 _ _ mode_NE a b N) as C. change (round_mode mode_NE) with ZnearestE in C.
  rewrite Rlt_bool_true in C by exact B. destruct C as (C1 & C2 & _). rewrite A2 in C2.
  destruct (B_finite _ C2) as (F & V). split; auto. rewrite V. exact C1.
Qed.

(** Whole numbers. *)
Lemma format_Z : forall z, (Z.abs z <= 2 ^ 53)%Z -> generic_format radix2 fexp64 (IZR z).
Proof.
  intros z H. apply (generic_format_FLT radix2 (-1074) 53). 
  destruct (Z.eq_dec (Z.abs z) (2 ^ 53)) as [E|N].
  - destruct (Z.abs_spec z) as [(_ & A)|(_ & A)]; rewrite A in E.
    + subst z. apply (FLT_spec radix2 (-1074) 53 _ (Float radix2 1 53)); [unfold F2R; cbn; lra|cbn; lia|cbn; lia].
    + replace z with (- 2 ^ 53)%Z by lia. apply (FLT_spec radix2 (-1074) 53 _ (Float radix2 (-1) 53)); [unfold F2R; cbn; lra|cbn; lia|cbn; lia].
  - apply (FLT_spec radix2 (-1074) 53 _ (Float radix2 z 0)); [unfold F2R; cbn; ring|cbn [Fnum]; change (Z.abs z < 2 ^ 53)%Z; lia|cbn; lia].
Qed.

Lemma ofZ_real : forall z, (Z.abs z <= 2 ^ 53)%Z -> finite64 (F_ofZ z) /\ val (F_ofZ z) = IZR z.
Proof.
  intros z H. unfold F_ofZ. rewrite normalize_equiv.
  pose proof (binary_normalize_correct prec64 emax64 Hprec Hmax mode_NE z 0 false) as C. cbv zeta in C.
  change (round_mode mode_NE) with ZnearestE in C.
  assert (E : F2R (Float radix2 z 0) = IZR z) by (unfold F2R; cbn; ring). rewrite E in C.
  rewrite (round_generic radix2 fexp64 ZnearestE (IZR z)) in C by (now apply format_Z).
  rewrite Rlt_bool_true in C.
  2:{ rewrite <- abs_IZR. apply Rle_lt_trans with (IZR (2 ^ 53)); [now apply IZR_le|]. change emax64 with 1024%Z. rewrite (IZR_pow2 53) by lia. apply bpow_lt. lia. }
  destruct C as (C1 & C2 & _). destruct (B_finite _ C2) as (F & V). split; [exact F|]. etransitivity; [exact V|exact C1].
Qed.

(** The integer part of a double. *)
Lemma split_real : forall m e q r d, F_split m e = (q, r, d) -> (0 < d)%Z /\ (0 <= r < d)%Z /\ (0 <= q)%Z /\
  F2R (Float radix2 (Zpos m) e) = IZR q + IZR r / IZR d.
Proof.
  intros m e q r d H. unfold F_split in H. destruct (Z.leb_spec 0 e) as [L|L].
  - assert (q = (Z.pos m * 2 ^ e)%Z /\ r = 0%Z /\ d = 1%Z) as (-> & -> & ->) by (split; [congruence|split; congruence]). clear H.
    split; [lia|]. split; [lia|]. split; [apply Z.mul_nonneg_nonneg; [lia|apply Z.pow_nonneg; lia]|].
    unfold F2R. cbn [Fnum Fexp]. rewrite mult_IZR, (IZR_pow2 e L). field.
  - cbv zeta in H. injection H as <- <- <-. assert (D : (0 < 2 ^ (- e))%Z) by (apply Z.pow_pos_nonneg; lia).
    split; auto. split; [apply Z.mod_pos_bound; auto|]. split; [apply Z.div_pos; lia|].
    pose proof (Z.div_mod (Z.pos m) (2 ^ (- e)) ltac:(lia)) as E. apply (f_equal IZR) in E. rewrite plus_IZR, mult_IZR in E.
    assert (P : 0 < IZR (2 ^ (- e))) by (apply IZR_lt; auto).
    unfold F2R. cbn [Fnum Fexp]. rewrite E at 1.
    assert (B : bpow radix2 e = / IZR (2 ^ (- e))) by (rewrite (IZR_pow2 (- e)), <- bpow_opp by lia; f_equal; lia).
    rewrite B. field. lra.
Qed.

Lemma toZ_ofZ : forall z, (Z.abs z <= 2 ^ 53)%Z -> F_toZ (F_ofZ z) = z.
Proof.
  intros z H. destruct (ofZ_real z H) as ((V & F) & E). destruct (F_ofZ z) as [s|s| |s m e] eqn:X; try discriminate F.
  - cbn in E. symmetry in E. apply (eq_IZR z 0) in E. subst. reflexivity.
  - cbn [F_toZ]. destruct (F_split m e) as ((q, r), d) eqn:S1. destruct (split_real _ _ _ _ _ S1) as (D & R & Q & W).
    assert (PD : 0 < IZR d) by (now apply IZR_lt).
    assert (A : IZR q + IZR r / IZR d = IZR (Z.abs z)).
    { rewrite <- W, abs_IZR, <- E. cbn [SF2R]. rewrite <- F2R_Zabs. f_equal. f_equal. now destruct s. }
    assert (K : q = Z.abs z).
    { assert (R2 : 0 <= IZR r / IZR d < 1).
      { destruct R as (R1 & R2). apply IZR_le in R1. apply IZR_lt in R2. split; [apply Rmult_le_pos; [lra|left; now apply Rinv_0_lt_compat]|].
        apply (Rmult_lt_reg_r (IZR d)); auto. unfold Rdiv. rewrite Rmult_assoc, Rinv_l by lra. lra. }
      assert (q <= Z.abs z < q + 1)%Z; [|lia]. split; [apply le_IZR|apply lt_IZR; rewrite plus_IZR]; lra. }
    assert (SG : (if s then z < 0 else 0 < z)%Z).
    { cbn [SF2R] in E. destruct s; [apply lt_IZR; rewrite <- E; apply F2R_lt_0|apply lt_IZR; rewrite <- E; apply F2R_gt_0]; cbn; lia. }
    destruct s; lia.
Qed.

(** Rounding to the nearest whole number. *)
Lemma rint_near : forall x z, finite64 x -> (Z.abs z <= 2 ^ 53)%Z -> Rabs (val x - IZR z) < / 2 ->
  F_toZ (F_rint x) = z.
Proof.
  intros x z (V & F) B H. destruct x as [s|s| |s m e]; try discriminate F.
  - cbn [F_rint F_round F_toZ]. cbn [SF2R] in H. apply Rabs_def2 in H. assert (-1 < z < 1)%Z; [|lia]. split; apply lt_IZR; lra.
  - unfold F_rint. cbn [F_round]. destruct (F_split m e) as ((q, r), d) eqn:S1. destruct (split_real _ _ _ _ _ S1) as (D & R & Q & W).
    set (a := match (2 * r ?= d)%Z with Eq => if Z.even q then q else (q + 1)%Z | Lt => q | Gt => (q + 1)%Z end).
    assert (PD : 0 < IZR d) by (now apply IZR_lt).
    assert (EF : IZR r = IZR r / IZR d * IZR d) by (field; lra). set (f := IZR r / IZR d) in *.
    assert (F01 : 0 <= f < 1).
    { destruct R as (R1 & R2). apply IZR_le in R1. apply IZR_lt in R2. rewrite EF in *. split.
      - apply (Rmult_le_reg_r (IZR d)); auto. rewrite Rmult_0_l. lra.
      - apply (Rmult_lt_reg_r (IZR d)); auto. rewrite Rmult_1_l. lra. }
    assert (NA : Rabs (IZR a - (IZR q + f)) <= / 2).
    { unfold a. destruct (Z.compare_spec (2 * r) d) as [K|K|K].
      - apply (f_equal IZR) in K. rewrite mult_IZR, EF in K. assert (f = / 2) by (apply (Rmult_eq_reg_r (IZR d)); lra).
        destruct (Z.even q); rewrite ?plus_IZR; apply Rabs_le; lra.
      - apply IZR_lt in K. rewrite mult_IZR, EF in K. assert (f < / 2) by (apply (Rmult_lt_reg_r (IZR d)); lra). apply Rabs_le; lra.
      - apply IZR_lt in K. rewrite mult_IZR, EF in K. assert (/ 2 < f) by (apply (Rmult_lt_reg_r (IZR d)); lra). rewrite plus_IZR. apply Rabs_le; lra. }
    assert (VX : val (S754_finite s m e) = (if s then - (IZR q + f) else IZR q + f)).
    { cbn [SF2R]. rewrite <- W. destruct s; cbn [cond_Zopp]; auto. rewrite <- F2R_Zopp. reflexivity. }
    rewrite VX in H. set (zz := (if s then - a else a)%Z).
    assert (Z1 : zz = z).
    { assert (HA := Rabs_def2 _ _ H). assert (HB : -(/2) <= IZR a - (IZR q + f) <= /2) by (revert NA; unfold Rabs; destruct (Rcase_abs _); intros; lra).
      unfold zz. destruct s.
      - assert (z - 1 < - a < z + 1)%Z; [|lia]. split; apply lt_IZR; rewrite ?opp_IZR, ?plus_IZR, ?minus_IZR, ?opp_IZR; lra.
      - assert (z - 1 < a < z + 1)%Z; [|lia]. split; apply lt_IZR; rewrite ?plus_IZR, ?minus_IZR; lra. }
    rewrite Z1. unfold F_int. destruct (Z.eqb_spec z 0) as [->|N]; [reflexivity|]. now apply toZ_ofZ.
Qed.

(** The relative error of rounding. *)
Lemma rnd_error : forall v, / 1000000 <= Rabs v -> Rabs (rnd v - v) <= / 9007199254740992 * Rabs v.
Proof.
  intros v H. destruct (relative_error_N_FLT_ex radix2 (-1074) 53 Hp53 (fun x => negb (Z.even x)) v) as (eps & E1 & E2).
  - apply Rle_trans with (/ 1000000); auto. apply Rle_trans with (bpow radix2 (-20)); [apply bpow_le; lia|]. cbn. lra.
  - change (round radix2 (FLT_exp (-1074) 53) ZnearestE v) with (rnd v) in E2. rewrite E2.
    replace (v * (1 + eps) - v) with (eps * v) by ring. rewrite Rabs_mult. apply Rmult_le_compat_r; [apply Rabs_pos|].
    eapply Rle_trans; [exact E1|]. cbn. lra.
Qed.
