(** repr() of a double, read by float(), is the same double. *)
From Coq Require Import ZArith Bool Ascii String List Lia Reals Lra.
From Coq Require Import Floats.SpecFloat.
From Flocq Require Import Core IEEE754.BinarySingleNaN.
From Verif Require Import Base Ops FloatOps PyStr PyStrProofs PyFloat PyDecimal.
From Coq Require Import List.
Import ListNotations.
Local Open Scope Z_scope.

Local Instance Hprec : FLX.Prec_gt_0 prec64 := eq_refl _.
Local Instance Hmax : Prec_lt_emax prec64 emax64 := eq_refl _.

Definition ten : radix := Build_radix 10 eq_refl.

(** ** The rounding of [binary_normalize] (Flocq) *)

Lemma nearest_even : forall s m l, SpecFloat.round_nearest_even m l = choice_mode mode_NE s m l.
Proof. intros s m [|[]]; try reflexivity. cbn. unfold Round.cond_incr. now destruct (Z.even m). Qed.

Lemma round_aux_equiv : forall sx mx ex lx,
  SpecFloat.binary_round_aux prec64 emax64 sx mx ex lx = BinarySingleNaN.binary_round_aux prec64 emax64 mode_NE sx mx ex lx.
Proof.
  intros. unfold SpecFloat.binary_round_aux, BinarySingleNaN.binary_round_aux.
  set (mrse' := shr_fexp _ _ _). case mrse'; intros mrs' e'; cbn. now rewrite (nearest_even sx).
Qed.

Lemma round_equiv : forall s m e,
  SpecFloat.binary_round prec64 emax64 s m e = BinarySingleNaN.binary_round prec64 emax64 mode_NE s m e.
Proof.
  intros. unfold SpecFloat.binary_round, BinarySingleNaN.binary_round, shl_align_fexp.
  set (mez := shl_align _ _ _). case mez as [mz ez]. apply round_aux_equiv.
Qed.

Lemma normalize_equiv : forall m e z,
  SpecFloat.binary_normalize prec64 emax64 m e z = B2SF (BinarySingleNaN.binary_normalize prec64 emax64 Hprec Hmax mode_NE m e z).
Proof.
  intros [|p|p] e z; [reflexivity| |].
  - cbn [SpecFloat.binary_normalize BinarySingleNaN.binary_normalize]. rewrite B2SF_SF2B. apply round_equiv.
  - cbn [SpecFloat.binary_normalize BinarySingleNaN.binary_normalize]. rewrite B2SF_SF2B. apply round_equiv.
Qed.

Notation fexp64 := (SpecFloat.fexp prec64 emax64).
Notation rnd := (round radix2 fexp64 ZnearestE).

(** The double that the rounding gives. *)
Lemma normalize_eq : forall x mz ez z, SpecFloat.valid_binary prec64 emax64 x = true -> is_finite_SF x = true ->
  SF2R radix2 x <> 0%R -> rnd (F2R (Float radix2 mz ez)) = SF2R radix2 x ->
  SpecFloat.binary_normalize prec64 emax64 mz ez z = x.
Proof.
  intros x mz ez z V F N R. rewrite normalize_equiv. set (bx := SF2B (prec := prec64) (emax := emax64) x V).
  assert (BX : B2R bx = SF2R radix2 x) by apply B2R_SF2B.
  assert (FX : is_finite bx = true) by (unfold bx; rewrite is_finite_SF2B; exact F).
  pose proof (binary_normalize_correct prec64 emax64 Hprec Hmax mode_NE mz ez z) as C. cbv zeta in C.
  change (round_mode mode_NE) with ZnearestE in C. rewrite R in C.
  rewrite Rlt_bool_true in C.
  2:{ rewrite <- BX. apply abs_B2R_lt_emax. }
  destruct C as (C1 & C2 & _).
  assert (E : BinarySingleNaN.binary_normalize prec64 emax64 Hprec Hmax mode_NE mz ez z = bx).
  { apply B2R_inj.
    - apply is_finite_strict_B2R. now rewrite C1.
    - apply is_finite_strict_B2R. now rewrite BX.
    - now rewrite C1, BX. }
  rewrite E. apply B2SF_SF2B.
Qed.

(** ** Closeness decides *)

Lemma fexp_FLT : forall e, fexp64 e = FLT_exp (-1074) 53 e.
Proof. intros e. reflexivity. Qed.

Local Instance Hp53 : FLX.Prec_gt_0 53 := eq_refl _.
Local Instance fexp64_valid : Valid_exp fexp64 := FLT_exp_valid (-1074) 53.

Local Open Scope R_scope.

Lemma two53 : bpow radix2 (-53) = / 9007199254740992.
Proof. cbn. reflexivity. Qed.

Lemma round_close_pos : forall X v, generic_format radix2 fexp64 X -> 0 < X ->
  Rabs (v - X) <= X * (51 / 1000000000000000000) -> rnd v = X.
Proof.
  intros X v G P C.
  assert (GS : X * bpow radix2 (-53) < ulp radix2 fexp64 X).
  { pose proof (ulp_FLT_gt radix2 (-1074) 53 X) as H. rewrite Rabs_pos_eq in H by lra. exact H. }
  set (q := pred radix2 fexp64 X).
  assert (GP : q * bpow radix2 (-53) < ulp radix2 fexp64 q /\ X = q + ulp radix2 fexp64 q).
  { assert (Q : 0 <= q) by (unfold q; apply pred_ge_0; auto with typeclass_instances). split.
    - pose proof (ulp_FLT_gt radix2 (-1074) 53 q) as H. rewrite Rabs_pos_eq in H by lra. exact H.
    - rewrite <- (succ_pred radix2 fexp64 X G) at 1. fold q. rewrite succ_eq_pos by auto. reflexivity. }
  destruct GP as (GP & EX). rewrite two53 in *.
  assert (C1 : -(X * (51 / 1000000000000000000)) <= v - X <= X * (51 / 1000000000000000000)) by (revert C; unfold Rabs; destruct (Rcase_abs _); lra).
  apply Rle_antisym.
  - apply round_N_le_midp; auto with typeclass_instances. rewrite succ_eq_pos by lra. lra.
  - apply round_N_ge_midp; auto with typeclass_instances. fold q. lra.
Qed.

(** ** float() of a decimal *)

Lemma IZR_pow10 : forall k, (0 <= k)%Z -> IZR (10 ^ k) = bpow ten k.
Proof. intros k K. exact (IZR_Zpower ten k K). Qed.
Lemma IZR_pow2 : forall k, (0 <= k)%Z -> IZR (2 ^ k) = bpow radix2 k.
Proof. intros k K. exact (IZR_Zpower radix2 k K). Qed.

Lemma bpow_inv : forall r k, bpow r (- k) * bpow r k = 1.
Proof. intros r k. rewrite <- bpow_plus. replace (- k + k)%Z with 0%Z by lia. reflexivity. Qed.

Lemma scaled_enough : forall M d, (0 < M)%Z -> (0 < d)%Z ->
  let k := Z.max 0 (64 + Z.log2 d - Z.log2 M) in (2 ^ 63 * d <= M * 2 ^ k)%Z.
Proof.
  intros M d PM PD k. pose proof (Z.log2_spec M PM) as (A & _). pose proof (Z.log2_spec d PD) as (_ & B).
  pose proof (Z.log2_nonneg M) as LM. pose proof (Z.log2_nonneg d) as LD. assert (K0 : (0 <= k)%Z) by (unfold k; lia).
  assert (X : (2 ^ 63 * 2 ^ Z.succ (Z.log2 d) <= 2 ^ Z.log2 M * 2 ^ k)%Z).
  { rewrite <- !Z.pow_add_r by lia. apply Z.pow_le_mono_r; [lia|]. unfold k. lia. }
  assert (0 < 2 ^ k)%Z by (apply Z.pow_pos_nonneg; lia). nia.
Qed.

Lemma decimal_near : forall neg M E, (0 < M)%Z -> (-5000 <= E <= 5000)%Z ->
  exists mz ez, F_decimal neg M E = SpecFloat.binary_normalize prec64 emax64 (if neg then - mz else mz) ez neg /\
    Rabs (F2R (Float radix2 mz ez) - IZR M * bpow ten E) <= IZR M * bpow ten E * / 9223372036854775808.
Proof.
  intros neg M E PM (B1 & B2). unfold F_decimal.
  destruct (Z.eqb_spec M 0) as [N|_]; [lia|]. destruct (Z.gtb_spec E 5000) as [N|_]; [lia|]. destruct (Z.ltb_spec E (-5000)) as [N|_]; [lia|].
  assert (PR : 0 < IZR M) by (apply IZR_lt; lia).
  destruct (Z.leb_spec 0 E) as [C|C].
  - exists (M * 10 ^ E)%Z, 0%Z. split; [reflexivity|].
    unfold F2R. cbn [Fnum Fexp bpow]. rewrite Rmult_1_r, mult_IZR, IZR_pow10 by auto. rewrite Rminus_diag_eq by reflexivity. rewrite Rabs_R0.
    pose proof (bpow_gt_0 ten E). apply Rmult_le_pos; [|lra]. apply Rmult_le_pos; lra.
  - set (d := (10 ^ (- E))%Z). assert (PD : (0 < d)%Z) by (apply Z.pow_pos_nonneg; lia).
    set (k := Z.max 0 (64 + Z.log2 d - Z.log2 M)). assert (K0 : (0 <= k)%Z) by (unfold k; lia).
    pose proof (scaled_enough M d PM PD) as SE. cbv zeta in SE. fold k in SE.
    set (q := (M * 2 ^ k / d)%Z). set (r := (M * 2 ^ k mod d)%Z).
    assert (DM : (M * 2 ^ k = d * q + r)%Z) by (apply Z.div_mod; lia). assert (RB : (0 <= r < d)%Z) by (apply Z.mod_pos_bound; lia).
    exists (2 * q + (if r =? 0 then 0 else 1))%Z, (- k - 1)%Z. split; [reflexivity|].
    set (s := (if r =? 0 then 0 else 1)%Z).
    assert (VD : bpow ten E = / IZR d).
    { unfold d. rewrite IZR_pow10 by lia. rewrite <- bpow_opp. f_equal. lia. }
    assert (PDR : 0 < IZR d) by (apply IZR_lt; lia).
    pose proof (bpow_gt_0 radix2 k) as PK.
    assert (V2 : bpow radix2 (- k - 1) = / 2 * / bpow radix2 k).
    { replace (- k - 1)%Z with (- k + (-1))%Z by lia. rewrite bpow_plus, bpow_opp. change (bpow radix2 (-1)) with (/ 2). apply Rmult_comm. }
    apply (f_equal IZR) in DM. rewrite mult_IZR, plus_IZR, mult_IZR, IZR_pow2 in DM by auto.
    apply IZR_le in SE. rewrite !mult_IZR, (IZR_pow2 k) in SE by auto. change (IZR (2 ^ 63)) with 9223372036854775808 in SE.
    destruct RB as (R1 & R2). apply IZR_le in R1. apply IZR_lt in R2.
    unfold F2R. cbn [Fnum Fexp]. rewrite plus_IZR, mult_IZR, VD, V2.
    set (v := IZR M * / IZR d). set (b := bpow radix2 k) in *.
    assert (MV : IZR M = v * IZR d) by (unfold v; field; lra).
    assert (EV : v * b = IZR q + IZR r / IZR d) by (unfold v; apply (Rmult_eq_reg_r (IZR d)); [|lra]; field_simplify; [nra|lra..]).
    assert (RD : 0 <= IZR r / IZR d < 1).
    { split; [apply Rmult_le_pos; [lra|left; now apply Rinv_0_lt_compat]|]. apply (Rmult_lt_reg_r (IZR d)); [lra|]. unfold Rdiv. rewrite Rmult_assoc, Rinv_l by lra. lra. }
    assert (SV : 9223372036854775808 <= v * b).
    { apply (Rmult_le_reg_r (IZR d)); [lra|]. replace (v * b * IZR d) with (IZR M * b) by (rewrite MV; ring). lra. }
    assert (NB : Rabs ((2 * IZR q + IZR s) - 2 * (v * b)) <= 1).
    { rewrite EV. unfold s. destruct (Z.eqb_spec r 0) as [Z0|Z0].
      - rewrite Z0. replace (2 * IZR q + IZR 0 - 2 * (IZR q + 0 / IZR d)) with 0 by (unfold Rdiv; rewrite Rmult_0_l; ring). rewrite Rabs_R0. lra.
      - replace (2 * IZR q + IZR 1 - 2 * (IZR q + IZR r / IZR d)) with (1 - 2 * (IZR r / IZR d)) by ring.
        unfold Rabs. destruct (Rcase_abs _); lra. }
    replace ((2 * IZR q + IZR s) * (/ 2 * / b) - v) with ((2 * IZR q + IZR s - 2 * (v * b)) * (/ 2 * / b)) by (field; lra).
    assert (PB : 0 < / b) by (now apply Rinv_0_lt_compat).
    rewrite Rabs_mult, (Rabs_pos_eq (/ 2 * / b)) by (apply Rmult_le_pos; lra).
    apply Rle_trans with (1 * (/ 2 * / b)); [apply Rmult_le_compat_r; [apply Rmult_le_pos; lra|exact NB]|].
    assert (IB : / b <= v * / 9223372036854775808).
    { apply (Rmult_le_reg_r b); [lra|]. rewrite Rinv_l by lra. replace (v * / 9223372036854775808 * b) with (v * b * / 9223372036854775808) by ring. lra. }
    lra.
Qed.

(** ** Digits of a double *)

Lemma div_even_near : forall num den, (0 < den)%Z -> Rabs (IZR (div_even num den) - IZR num / IZR den) <= / 2.
Proof.
  intros num den P. unfold div_even. pose proof (Z.div_mod num den ltac:(lia)) as D. pose proof (Z.mod_pos_bound num den P) as B.
  set (q := (num / den)%Z) in *. set (r := (num mod den)%Z) in *. destruct B as (B1 & B2). 
  assert (PD : 0 < IZR den) by (apply IZR_lt; lia).
  assert (E : IZR num / IZR den = IZR q + IZR r / IZR den).
  { rewrite D, plus_IZR, mult_IZR. field. lra. }
  rewrite E. set (f := IZR r / IZR den).
  assert (F : f * IZR den = IZR r) by (unfold f; field; lra).
  apply IZR_le in B1. apply IZR_lt in B2.
  assert (G : 0 <= f < 1) by (split; [apply (Rmult_le_reg_r (IZR den)); lra|apply (Rmult_lt_reg_r (IZR den)); lra]).
  assert (C : match (2 * r ?= den)%Z with Lt => f <= / 2 | Eq => f = / 2 | Gt => / 2 <= f end).
  { destruct (Z.compare_spec (2 * r) den) as [C|C|C].
    - apply (f_equal IZR) in C. rewrite mult_IZR in C. apply (Rmult_eq_reg_r (IZR den)); lra.
    - apply IZR_lt in C. rewrite mult_IZR in C. apply (Rmult_le_reg_r (IZR den)); lra.
    - apply IZR_lt in C. rewrite mult_IZR in C. apply (Rmult_le_reg_r (IZR den)); lra. }
  destruct (2 * r ?= den)%Z.
  - rewrite C. destruct (Z.even q); rewrite ?plus_IZR; unfold Rabs; destruct (Rcase_abs _); lra.
  - unfold Rabs. destruct (Rcase_abs _); lra.
  - rewrite plus_IZR. unfold Rabs. destruct (Rcase_abs _); lra.
Qed.

Definition k_start (l : Z) : Z := (l * 30103 / 100000 - 1)%Z.

(** 10^a <= 2^b, in whole numbers. *)
Definition pow_le (a b : Z) : bool := (10 ^ Z.max a 0 * 2 ^ Z.max (- b) 0 <=? 2 ^ Z.max b 0 * 10 ^ Z.max (- a) 0)%Z.
Definition pow_ge (a b : Z) : bool := (2 ^ Z.max b 0 * 10 ^ Z.max (- a) 0 <=? 10 ^ Z.max a 0 * 2 ^ Z.max (- b) 0)%Z.

Lemma bpow_split : forall r k, bpow r k = bpow r (Z.max k 0) * / bpow r (Z.max (- k) 0).
Proof. intros r k. rewrite <- bpow_opp, <- bpow_plus. f_equal. lia. Qed.

Lemma pow_le_R : forall a b, pow_le a b = true -> bpow ten a <= bpow radix2 b.
Proof.
  intros a b H. unfold pow_le in H. apply Z.leb_le in H. apply IZR_le in H. rewrite !mult_IZR, !IZR_pow10, !IZR_pow2 in H by lia.
  rewrite (bpow_split ten a), (bpow_split radix2 b).
  pose proof (bpow_gt_0 ten (Z.max (- a) 0)) as A. pose proof (bpow_gt_0 radix2 (Z.max (- b) 0)) as B.
  apply (Rmult_le_reg_r (bpow ten (Z.max (- a) 0) * bpow radix2 (Z.max (- b) 0))); [now apply Rmult_lt_0_compat|].
  field_simplify; lra.
Qed.

Lemma pow_ge_R : forall a b, pow_ge a b = true -> bpow radix2 b <= bpow ten a.
Proof.
  intros a b H. unfold pow_ge in H. apply Z.leb_le in H. apply IZR_le in H. rewrite !mult_IZR, !IZR_pow10, !IZR_pow2 in H by lia.
  rewrite (bpow_split ten a), (bpow_split radix2 b).
  pose proof (bpow_gt_0 ten (Z.max (- a) 0)) as A. pose proof (bpow_gt_0 radix2 (Z.max (- b) 0)) as B.
  apply (Rmult_le_reg_r (bpow ten (Z.max (- a) 0) * bpow radix2 (Z.max (- b) 0))); [now apply Rmult_lt_0_compat|].
  field_simplify; lra.
Qed.

(** The starting point is right for every exponent of a double. *)
Fixpoint all_from (n : nat) (z : Z) (f : Z -> bool) : bool :=
  match n with O => true | S n' => f z && all_from n' (z + 1) f end.
Lemma all_from_ok : forall n z f, all_from n z f = true -> forall l, (z <= l < z + Z.of_nat n)%Z -> f l = true.
Proof.
  induction n as [|n IH]; intros z f H l B; [lia|]. cbn [all_from] in H. apply andb_true_iff in H. destruct H as (H1 & H2).
  destruct (Z.eq_dec l z) as [->|N]; auto. apply (IH (z + 1)%Z f H2). lia.
Qed.
Lemma k_start_all : all_from 2200 (-1100) (fun l => pow_le (k_start l) l && pow_ge (k_start l + 6) (l + 2)
   && ((-400 <=? k_start l) && (k_start l <=? 350)))%Z = true.
Proof. vm_compute. reflexivity. Qed.

Lemma log10_up_spec : forall n k num den, (0 < num)%Z -> (0 < den)%Z ->
  bpow ten k <= IZR num / IZR den < bpow ten (k + Z.of_nat n + 1) ->
  let k' := log10_up n k num den in bpow ten k' <= IZR num / IZR den < bpow ten (k' + 1) /\ (k <= k' <= k + Z.of_nat n)%Z.
Proof.
  induction n as [|n IH]; intros k num den PN PD (A & B); cbn [log10_up]; cbv zeta.
  - split; [|lia]. split; auto. replace (k + 1)%Z with (k + Z.of_nat 0 + 1)%Z by lia. exact B.
  - assert (PDR : 0 < IZR den) by (apply IZR_lt; lia).
    assert (TE : forall q, (if 0 <=? q then 10 ^ q * den <=? num else den <=? num * 10 ^ (- q))%Z = true <-> bpow ten q <= IZR num / IZR den).
    { intros q. destruct (Z.leb_spec 0 q) as [Q|Q]; rewrite Z.leb_le; split; intros H.
      - apply IZR_le in H. rewrite mult_IZR, IZR_pow10 in H by auto. apply (Rmult_le_reg_r (IZR den)); [lra|]. unfold Rdiv. rewrite Rmult_assoc, Rinv_l by lra. lra.
      - apply le_IZR. rewrite mult_IZR, IZR_pow10 by auto. apply (Rmult_le_compat_r (IZR den)) in H; [|lra]. unfold Rdiv in H. rewrite Rmult_assoc, Rinv_l in H by lra. lra.
      - apply IZR_le in H. rewrite mult_IZR, IZR_pow10 in H by lia. pose proof (bpow_gt_0 ten q) as P. pose proof (bpow_inv ten q) as I.
        apply (Rmult_le_reg_r (IZR den)); [lra|]. unfold Rdiv. rewrite Rmult_assoc, Rinv_l by lra. rewrite <- I.
        apply (Rmult_le_compat_l (bpow ten q)) in H; [|lra]. lra.
      - apply le_IZR. rewrite mult_IZR, IZR_pow10 by lia. pose proof (bpow_gt_0 ten (- q)) as P. pose proof (bpow_inv ten q) as I.
        apply (Rmult_le_compat_r (IZR den)) in H; [|lra]. unfold Rdiv in H. rewrite Rmult_assoc, Rinv_l in H by lra.
        apply (Rmult_le_compat_l (bpow ten (- q))) in H; [|lra]. replace (bpow ten (- q) * (bpow ten q * IZR den)) with (bpow ten (- q) * bpow ten q * IZR den) in H by ring. rewrite I in H. lra. }
    specialize (TE (k + 1)%Z). destruct (if 0 <=? k + 1 then 10 ^ (k + 1) * den <=? num else den <=? num * 10 ^ (- (k + 1)))%Z.
    + destruct (IH (k + 1)%Z num den PN PD) as (H1 & H2).
      { split; [now apply TE|]. replace (k + 1 + Z.of_nat n + 1)%Z with (k + Z.of_nat (S n) + 1)%Z by lia. exact B. }
      split; auto. lia.
    + split; [|lia]. split; auto. apply Rnot_le_lt. intros H. apply TE in H. discriminate.
Qed.

Lemma sig_digits_spec : forall n m e, (0 < n)%Z -> (Z.log2 (Zpos m) + e <= 1030)%Z -> (-1080 <= Z.log2 (Zpos m) + e)%Z ->
  let X := F2R (Float radix2 (Zpos m) e) in
  exists d k k0, sig_digits n m e = (d, k) /\ (10 ^ (n - 1) <= d < 10 ^ n)%Z /\ (k0 <= k <= k0 + 1)%Z /\ (-400 <= k0 <= 355)%Z /\
    bpow ten k0 <= X < bpow ten (k0 + 1) /\ Rabs (IZR d * bpow ten (k + 1 - n) - X) <= / 2 * bpow ten (k0 + 1 - n).
Proof.
  intros n m e PN U1 U2 X. unfold sig_digits.
  set (num := (if 0 <=? e then Z.pos m * 2 ^ e else Z.pos m)%Z). set (den := (if 0 <=? e then 1 else 2 ^ (- e))%Z).
  assert (PNUM : (0 < num)%Z) by (unfold num; destruct (Z.leb_spec 0 e); [apply Z.mul_pos_pos; [lia|apply Z.pow_pos_nonneg; lia]|lia]).
  assert (PDEN : (0 < den)%Z) by (unfold den; destruct (Z.leb_spec 0 e); [lia|apply Z.pow_pos_nonneg; lia]).
  assert (EX : X = IZR num / IZR den).
  { unfold X, F2R, num, den. cbn [Fnum Fexp]. destruct (Z.leb_spec 0 e).
    - rewrite mult_IZR, IZR_pow2 by auto. field.
    - rewrite IZR_pow2 by lia. rewrite bpow_opp. unfold Rdiv. rewrite Rinv_inv. reflexivity. }
  assert (EL : (Z.log2 num - Z.log2 den = Z.log2 (Zpos m) + e)%Z).
  { unfold num, den. destruct (Z.leb_spec 0 e).
    - rewrite Z.log2_mul_pow2 by lia. change (Z.log2 1) with 0%Z. lia.
    - rewrite Z.log2_pow2 by lia. lia. }
  set (L := (Z.log2 num - Z.log2 den - 1)%Z).
  change ((L * 30103 / 100000 - 1))%Z with (k_start L).
  assert (LB : (-1100 <= L < -1100 + Z.of_nat 2200)%Z) by (change (Z.of_nat 2200) with 2200%Z; unfold L; lia).
  pose proof (all_from_ok _ _ _ k_start_all L LB) as KS. cbv beta in KS. apply andb_true_iff in KS. destruct KS as (KS & KB).
  apply andb_true_iff in KS. destruct KS as (K1 & K2). apply pow_le_R in K1. apply pow_ge_R in K2.
  apply andb_true_iff in KB. destruct KB as (KB1 & KB2). apply Z.leb_le in KB1, KB2.
  assert (BX : bpow radix2 L <= X < bpow radix2 (L + 2)).
  { rewrite EX. assert (PDR : 0 < IZR den) by (apply IZR_lt; lia).
    pose proof (Z.log2_spec num PNUM) as (A1 & A2). pose proof (Z.log2_spec den PDEN) as (B1 & B2).
    pose proof (Z.log2_nonneg num). pose proof (Z.log2_nonneg den).
    apply IZR_le in A1, B1. apply IZR_lt in A2, B2. rewrite IZR_pow2 in A1, A2, B1, B2 by lia.
    split.
    - apply (Rmult_le_reg_r (IZR den)); [lra|]. unfold Rdiv. rewrite Rmult_assoc, Rinv_l by lra. rewrite Rmult_1_r.
      apply Rle_trans with (bpow radix2 L * bpow radix2 (Z.succ (Z.log2 den))).
      + apply Rmult_le_compat_l; [apply bpow_ge_0|lra].
      + rewrite <- bpow_plus. replace (L + Z.succ (Z.log2 den))%Z with (Z.log2 num) by (unfold L; lia). exact A1.
    - apply (Rmult_lt_reg_r (IZR den)); [lra|]. unfold Rdiv. rewrite Rmult_assoc, Rinv_l by lra. rewrite Rmult_1_r.
      apply Rlt_le_trans with (bpow radix2 (Z.succ (Z.log2 num))); [exact A2|].
      replace (Z.succ (Z.log2 num)) with ((L + 2) + Z.log2 den)%Z by (unfold L; lia). rewrite bpow_plus.
      apply Rmult_le_compat_l; [apply bpow_ge_0|exact B1]. }
  destruct (log10_up_spec 5 (k_start L) num den PNUM PDEN) as (KX & KR).
  { rewrite <- EX. replace (k_start L + Z.of_nat 5 + 1)%Z with (k_start L + 6)%Z by lia. lra. }
  set (k := log10_up 5 (k_start L) num den) in *. rewrite <- EX in KX.
  set (p := (n - 1 - k)%Z).
  set (d := (if 0 <=? p then div_even (num * 10 ^ p) den else div_even num (den * 10 ^ (- p)))%Z).
  assert (DN : Rabs (IZR d - X * bpow ten p) <= / 2).
  { unfold d. destruct (Z.leb_spec 0 p) as [Q|Q].
    - pose proof (div_even_near (num * 10 ^ p) den PDEN) as H. rewrite mult_IZR, IZR_pow10 in H by auto.
      replace (X * bpow ten p) with (IZR num * bpow ten p / IZR den); auto. rewrite EX. unfold Rdiv. ring.
    - assert (P10 : (0 < 10 ^ (- p))%Z) by (apply Z.pow_pos_nonneg; lia).
      pose proof (div_even_near num (den * 10 ^ (- p)) ltac:(lia)) as H. rewrite mult_IZR, IZR_pow10 in H by lia.
      replace (X * bpow ten p) with (IZR num / (IZR den * bpow ten (- p))); auto. rewrite EX, bpow_opp.
      pose proof (bpow_gt_0 ten p). assert (0 < IZR den) by (apply IZR_lt; lia). field. lra. }
  assert (PP := bpow_gt_0 ten p).
  assert (LO : bpow ten (n - 1) <= X * bpow ten p).
  { replace (n - 1)%Z with (k + p)%Z by (unfold p; lia). rewrite bpow_plus. apply Rmult_le_compat_r; lra. }
  assert (HI : X * bpow ten p < bpow ten n).
  { replace n with (k + 1 + p)%Z at 1 by (unfold p; lia). rewrite bpow_plus. apply Rmult_lt_compat_r; lra. }
  assert (DL : (10 ^ (n - 1) <= d)%Z).
  { apply Z.lt_succ_r, lt_IZR. rewrite succ_IZR, IZR_pow10 by lia. revert DN. unfold Rabs. destruct (Rcase_abs _); lra. }
  assert (DH : (d <= 10 ^ n)%Z).
  { apply Z.lt_succ_r, lt_IZR. rewrite succ_IZR, IZR_pow10 by lia. revert DN. unfold Rabs. destruct (Rcase_abs _); lra. }
  assert (NR : Rabs (IZR d * bpow ten (k + 1 - n) - X) <= / 2 * bpow ten (k + 1 - n)).
  { replace (k + 1 - n)%Z with (- p)%Z by (unfold p; lia). pose proof (bpow_inv ten p) as I. pose proof (bpow_gt_0 ten (- p)) as PQ.
    replace (IZR d * bpow ten (- p) - X) with ((IZR d - X * bpow ten p) * bpow ten (- p)).
    - rewrite Rabs_mult, (Rabs_pos_eq (bpow ten (- p))) by lra. apply Rmult_le_compat_r; lra.
    - replace ((IZR d - X * bpow ten p) * bpow ten (- p)) with (IZR d * bpow ten (- p) - X * (bpow ten (- p) * bpow ten p)) by ring. rewrite I. ring. }
  destruct (Z.eqb_spec d (10 ^ n)) as [E|E].
  - exists (10 ^ (n - 1))%Z, (k + 1)%Z, k. split; auto. split.
    { split; [lia|]. apply Z.pow_lt_mono_r; lia. }
    split; [lia|]. split; [lia|]. split; [exact KX|].
    replace (IZR (10 ^ (n - 1)) * bpow ten (k + 1 + 1 - n)) with (IZR d * bpow ten (k + 1 - n)); auto.
    rewrite E, !IZR_pow10 by lia. rewrite <- !bpow_plus. f_equal. lia.
  - exists d, k, k. split; auto. split; [lia|]. split; [lia|]. split; [lia|]. split; auto.
Qed.

(** ** repr() *)

Notation valid64 := (SpecFloat.valid_binary prec64 emax64).

Lemma finite_range : forall s m e, valid64 (S754_finite s m e) = true ->
  (Z.log2 (Zpos m) + e <= 1030)%Z /\ (-1080 <= Z.log2 (Zpos m) + e)%Z /\ generic_format radix2 fexp64 (F2R (Float radix2 (Zpos m) e)).
Proof.
  intros s m e V. cbn [SpecFloat.valid_binary] in V. pose proof V as V0. unfold SpecFloat.bounded in V. apply andb_true_iff in V. destruct V as (C & B).
  apply Z.leb_le in B. unfold SpecFloat.canonical_mantissa in C. apply Zeq_bool_eq in C.
  rewrite Digits.Zpos_digits2_pos in C. unfold SpecFloat.fexp, SpecFloat.emin, prec64, emax64 in *.
  pose proof (Digits.Zdigits_correct radix2 (Zpos m)) as (D1 & D2). set (g := Digits.Zdigits radix2 (Zpos m)) in *.
  assert (G1 : (1 <= g)%Z) by (pose proof (Digits.Zdigits_gt_0 radix2 (Zpos m) ltac:(discriminate)) as H; fold g in H; lia).
  assert (LG : Z.log2 (Zpos m) = (g - 1)%Z).
  { apply Z.log2_unique; [lia|]. rewrite Z.abs_eq in * by lia. change (Zpower radix2 (g - 1)) with (2 ^ (g - 1))%Z in D1. change (Zpower radix2 g) with (2 ^ g)%Z in D2.
    replace (Z.succ (g - 1)) with g by lia. lia. }
  rewrite LG. split; [lia|]. split; [lia|].
  pose proof (generic_format_B2R prec64 emax64 (B754_finite false m e V0)) as G. exact G.
Qed.

Lemma format_finite_read : forall s m e, valid64 (S754_finite s m e) = true ->
  py_float (format_g 17 16 (S754_finite s m e)) = Some (S754_finite s m e).
Proof.
  intros s m e V. destruct (finite_range s m e V) as (U1 & U2 & G). set (X := F2R (Float radix2 (Zpos m) e)) in *.
  destruct (sig_digits_spec 17 m e ltac:(lia) U1 U2) as (d & k & k0 & ES & DR & KR & KB & XB & NR). fold X in XB, NR.
  unfold format_g. rewrite ES.
  destruct (layout_read 16 17 d k DR ltac:(lia)) as (M & E & PM & RD & (x & y & PX & PY & EV & EE) & EB).
  rewrite RD. f_equal.
  destruct (decimal_near s M E PM ltac:(lia)) as (mz & ez & EF & NF). rewrite EF.
  assert (VV : IZR M * bpow ten E = IZR d * bpow ten (k + 1 - 17)).
  { apply (f_equal IZR) in EV. rewrite !mult_IZR, !IZR_pow10 in EV by auto.
    replace E with (x + (E - x))%Z by lia. rewrite EE, bpow_plus, <- Rmult_assoc, EV, Rmult_assoc, <- bpow_plus. f_equal. f_equal. lia. }
  rewrite VV in NF.
  assert (X0 : 0 < X) by (pose proof (bpow_gt_0 ten k0); lra).
  replace (k0 + 1 - 17)%Z with (k0 + (-16))%Z in NR by lia. rewrite bpow_plus in NR.
  change (bpow ten (-16)) with (/ 10000000000000000) in NR.
  set (v := IZR d * bpow ten (k + 1 - 17)) in *. set (w := F2R (Float radix2 mz ez)) in *.
  assert (CL : Rabs (w - X) <= X * (51 / 1000000000000000000)).
  { revert NF NR. unfold Rabs. repeat destruct (Rcase_abs _); lra. }
  assert (RN : rnd w = X) by (apply round_close_pos; auto).
  apply normalize_eq; auto.
  - cbn [SF2R]. destruct s; cbn [cond_Zopp]; [rewrite F2R_Zopp|]; fold X; lra.
  - cbn [SF2R]. destruct s; cbn [cond_Zopp]; auto. rewrite !F2R_Zopp. fold w X. rewrite round_NE_opp. now rewrite RN.
Qed.

Lemma same_float_eq : forall o x, same_float o x = true -> o = Some x.
Proof.
  intros [[a|a| |a m e]|] [b|b| |b m' e'] H; try discriminate; cbn [same_float] in H.
  - apply eqb_prop in H. now subst.
  - apply eqb_prop in H. now subst.
  - reflexivity.
  - apply andb_true_iff in H. destruct H as (H & E). apply andb_true_iff in H. destruct H as (A & P).
    apply eqb_prop in A. apply Pos.eqb_eq in P. apply Z.eqb_eq in E. now subst.
Qed.

Lemma repr_from_read : forall tries n x, py_float (format_g (n + Z.of_nat tries) 16 x) = Some x ->
  py_float (repr_from tries n x) = Some x.
Proof.
  induction tries as [|tries IH]; intros n x H; cbn [repr_from].
  - replace n with (n + Z.of_nat 0)%Z by lia. exact H.
  - destruct (same_float (py_float (format_g n 16 x)) x) eqn:S1; [now apply same_float_eq|].
    apply IH. replace (n + 1 + Z.of_nat tries)%Z with (n + Z.of_nat (S tries))%Z by lia. exact H.
Qed.

Theorem py_repr_read : forall x, valid64 x = true -> py_float (py_repr x) = Some x.
Proof.
  intros x V. unfold py_repr. apply repr_from_read. change (1 + Z.of_nat 16)%Z with 17%Z. destruct x as [s|s| |s m e].
  - destruct s; vm_compute; reflexivity.
  - destruct s; vm_compute; reflexivity.
  - vm_compute; reflexivity.
  - now apply format_finite_read.
Qed.

Lemma F_decimal_valid : forall neg m e, valid64 (F_decimal neg m e) = true.
Proof.
  intros neg m e. unfold F_decimal. destruct (m =? 0)%Z; [reflexivity|]. destruct (e >? 5000)%Z; [reflexivity|].
  destruct (e <? -5000)%Z; [reflexivity|]. destruct (0 <=? e)%Z; rewrite normalize_equiv; apply valid_binary_B2SF.
Qed.

(** What float() returns is a double. *)
Theorem py_float_valid : forall s x, py_float s = Some x -> valid64 x = true.
Proof.
  intros s x H. rewrite py_float_read in H. destruct (signed (map lower (strip s))) as (neg, b). unfold read_unsigned in H.
  destruct (text_eqb b (t "nan")); [injection H as <-; reflexivity|].
  destruct (text_eqb b (t "inf") || text_eqb b (t "infinity")); [injection H as <-; reflexivity|].
  destruct (split_on "e"%char b) as [|a [|y [|]]]; try discriminate H.
  - destruct (mantissa a) as [p|]; [|discriminate H]. cbn [option_map] in H. injection H as <-. apply F_decimal_valid.
  - destruct (signed y) as (xneg, xd). destruct (mantissa a) as [p|]; [|discriminate H].
    destruct xd as [|c xd]; [discriminate H|]. destruct (digits_value (c :: xd)); [|discriminate H]. injection H as <-. apply F_decimal_valid.
Qed.
