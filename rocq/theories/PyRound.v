(** float() of a decimal is correctly rounded; str() keeps numbers of up to twelve digits. *)
From Coq Require Import ZArith Bool Ascii String List Lia Reals Lra.
From Coq Require Import Floats.SpecFloat.
From Flocq Require Import Core IEEE754.BinarySingleNaN Relative.
From Verif Require Import Base Ops FloatOps PyStr PyStrProofs PyFloat PyDecimal PyNearest.
From Coq Require Import List.
Import ListNotations.
Local Open Scope R_scope.

Local Instance Hp53 : FLX.Prec_gt_0 53 := eq_refl _.
Local Instance fexp64_valid : Valid_exp (SpecFloat.fexp prec64 emax64) := FLT_exp_valid (-1074) 53.

(** Two numbers in the same place with respect to all integers. *)
Definition alike (a b : R) : Prop := forall i : Z, (a < IZR i <-> b < IZR i) /\ (a = IZR i <-> b = IZR i).

Lemma alike_scale : forall k c a b, (k <= c)%Z -> alike (a * bpow radix2 (- k)) (b * bpow radix2 (- k)) ->
  alike (a * bpow radix2 (- c)) (b * bpow radix2 (- c)).
Proof.
  intros k c a b L H i. specialize (H (i * 2 ^ (c - k))%Z). rewrite mult_IZR, IZR_pow2 in H by lia.
  assert (X : forall z, z * bpow radix2 (- k) = z * bpow radix2 (- c) * bpow radix2 (c - k)).
  { intros z. rewrite Rmult_assoc, <- bpow_plus. f_equal. f_equal. lia. }
  rewrite !X in H. pose proof (bpow_gt_0 radix2 (c - k)) as P. destruct H as (H1 & H2). split.
  - split; intros Y.
    + apply (Rmult_lt_reg_r (bpow radix2 (c - k))); auto. apply H1. now apply Rmult_lt_compat_r.
    + apply (Rmult_lt_reg_r (bpow radix2 (c - k))); auto. apply H1. now apply Rmult_lt_compat_r.
  - split; intros Y.
    + apply (Rmult_eq_reg_r (bpow radix2 (c - k))); [|lra]. apply H2. now rewrite Y.
    + apply (Rmult_eq_reg_r (bpow radix2 (c - k))); [|lra]. apply H2. now rewrite Y.
Qed.

Lemma alike_le : forall a b, alike a b -> forall i, IZR i <= a <-> IZR i <= b.
Proof. intros a b H i. destruct (H i) as (H1 & _). split; intros Y; apply Rnot_lt_le; intros Z; apply H1 in Z; lra. Qed.

Lemma alike_floor : forall a b, alike a b -> Zfloor a = Zfloor b.
Proof.
  intros a b H. apply Zfloor_imp. pose proof (Zfloor_lb b) as L. pose proof (Zfloor_ub b) as U. split.
  - now apply (alike_le a b H).
  - rewrite plus_IZR. replace (IZR (Zfloor b) + 1) with (IZR (Zfloor b + 1)) by apply plus_IZR. apply H. now rewrite plus_IZR.
Qed.

Lemma alike_nearest : forall a b, alike (a * 2) (b * 2) -> ZnearestE a = ZnearestE b.
Proof.
  intros a b H. assert (H1 : alike a b).
  { intros i. specialize (H (i * 2)%Z). rewrite mult_IZR in H. destruct H as (A & B). split; split; intros Y.
    - assert (a * 2 < IZR i * 2) by lra. apply A in H. lra.
    - assert (b * 2 < IZR i * 2) by lra. apply A in H. lra.
    - assert (a * 2 = IZR i * 2) by lra. apply B in H. lra.
    - assert (b * 2 = IZR i * 2) by lra. apply B in H. lra. }
  pose proof (alike_floor a b H1) as F. unfold Znearest. rewrite F.
  assert (C : Zceil a = Zceil b).
  { destruct (Req_dec (IZR (Zfloor b)) b) as [E|E].
    - assert (Ea : a = b) by (symmetry in E; rewrite E; apply (H1 (Zfloor b)); auto). now rewrite Ea.
    - rewrite (Zceil_floor_neq b E). rewrite Zceil_floor_neq, F; auto. rewrite F. intros Y. apply E. symmetry. apply (H1 (Zfloor b)). auto. }
  rewrite C. set (f := Zfloor b).
  assert (Q : Rcompare (a - IZR f) (/ 2) = Rcompare (b - IZR f) (/ 2)).
  { specialize (H (f * 2 + 1)%Z). rewrite plus_IZR, mult_IZR in H. destruct H as (A & B).
    destruct (Rcompare_spec (b - IZR f) (/ 2)) as [X|X|X].
    - apply Rcompare_Lt. assert (Y : b * 2 < IZR f * 2 + 1) by lra. apply A in Y. lra.
    - apply Rcompare_Eq. assert (Y : b * 2 = IZR f * 2 + 1) by lra. apply B in Y. lra.
    - apply Rcompare_Gt. destruct (Rtotal_order (a * 2) (IZR f * 2 + 1)) as [Y|[Y|Y]]; [apply A in Y; lra|apply B in Y; lra|lra]. }
  now rewrite Q.
Qed.

(** Numbers that agree far enough below their last place are rounded to the same double. *)
Lemma alike_round : forall v w k, 0 < v -> 0 < w -> bpow radix2 63 <= v * bpow radix2 (- k) ->
  alike (v * bpow radix2 (- k)) (w * bpow radix2 (- k)) ->
  round radix2 (SpecFloat.fexp prec64 emax64) ZnearestE v = round radix2 (SpecFloat.fexp prec64 emax64) ZnearestE w.
Proof.
  intros v w k PV PW BV AL.
  assert (MV : (63 + k < mag radix2 v)%Z).
  { apply mag_gt_bpow. rewrite Rabs_pos_eq by lra. apply (Rmult_le_reg_r (bpow radix2 (- k))); [apply bpow_gt_0|].
    rewrite <- bpow_plus. replace (63 + k + - k)%Z with 63%Z by lia. exact BV. }
  assert (CMP : forall c, (k <= c)%Z -> (v < bpow radix2 c <-> w < bpow radix2 c)).
  { intros c L. pose proof (alike_scale k c v w L AL 1%Z) as (H & _). pose proof (bpow_gt_0 radix2 c) as P. pose proof (bpow_inv radix2 c) as I.
    pose proof (bpow_gt_0 radix2 (- c)) as P'. split; intros Y.
    - assert (X : v * bpow radix2 (- c) < 1) by (rewrite <- I, Rmult_comm; apply Rmult_lt_compat_l; auto).
      apply H in X. apply (Rmult_lt_compat_r (bpow radix2 c)) in X; auto. rewrite Rmult_assoc, I in X. lra.
    - assert (X : w * bpow radix2 (- c) < 1) by (rewrite <- I, Rmult_comm; apply Rmult_lt_compat_l; auto).
      apply H in X. apply (Rmult_lt_compat_r (bpow radix2 c)) in X; auto. rewrite Rmult_assoc, I in X. lra. }
  assert (MW : mag radix2 w = mag radix2 v :> Z).
  { apply mag_unique. rewrite Rabs_pos_eq by lra. destruct (mag radix2 v) as (e & E). cbn [mag_val] in *.
    specialize (E ltac:(lra)). rewrite Rabs_pos_eq in E by lra. destruct E as (E1 & E2). split.
    - apply Rnot_lt_le. intros Y. apply CMP in Y; [lra|lia].
    - apply CMP; [lia|auto]. }
  unfold round, F2R, scaled_mantissa, cexp. cbn [Fnum Fexp]. rewrite MW. f_equal. f_equal.
  set (c := SpecFloat.fexp prec64 emax64 (mag radix2 v)).
  assert (LC : (k <= c - 1)%Z) by (unfold c, SpecFloat.fexp, prec64; lia).
  apply alike_nearest. pose proof (alike_scale k (c - 1) v w LC AL) as H.
  replace (- (c - 1))%Z with (- c + 1)%Z in H by lia. rewrite bpow_plus in H. change (bpow radix2 1) with 2 in H.
  rewrite <- !Rmult_assoc in H. exact H.
Qed.

(** float() rounds correctly. *)
Theorem decimal_rounded : forall neg M E, (0 < M)%Z -> (-5000 <= E <= 5000)%Z ->
  exists mz ez, F_decimal neg M E = SpecFloat.binary_normalize prec64 emax64 (if neg then - mz else mz) ez neg /\
    0 < F2R (Float radix2 mz ez) /\
    round radix2 (SpecFloat.fexp prec64 emax64) ZnearestE (F2R (Float radix2 mz ez)) =
    round radix2 (SpecFloat.fexp prec64 emax64) ZnearestE (IZR M * bpow ten E).
Proof.
  intros neg M E PM (B1 & B2). unfold F_decimal.
  destruct (Z.eqb_spec M 0) as [N|_]; [lia|]. destruct (Z.gtb_spec E 5000) as [N|_]; [lia|]. destruct (Z.ltb_spec E (-5000)) as [N|_]; [lia|].
  assert (PR : 0 < IZR M) by (apply IZR_lt; lia).
  assert (PV : 0 < IZR M * bpow ten E) by (apply Rmult_lt_0_compat; [lra|apply bpow_gt_0]).
  destruct (Z.leb_spec 0 E) as [C|C].
  - exists (M * 10 ^ E)%Z, 0%Z. split; [reflexivity|].
    unfold F2R. cbn [Fnum Fexp bpow]. rewrite Rmult_1_r, mult_IZR, IZR_pow10 by auto. auto.
  - set (d := (10 ^ (- E))%Z). assert (PD : (0 < d)%Z) by (apply Z.pow_pos_nonneg; lia).
    set (k := Z.max 0 (64 + Z.log2 d - Z.log2 M)). assert (K0 : (0 <= k)%Z) by (unfold k; lia).
    pose proof (scaled_enough M d PM PD) as SE. cbv zeta in SE. fold k in SE.
    set (q := (M * 2 ^ k / d)%Z). set (r := (M * 2 ^ k mod d)%Z).
    assert (DM : (M * 2 ^ k = d * q + r)%Z) by (apply Z.div_mod; lia). assert (RB : (0 <= r < d)%Z) by (apply Z.mod_pos_bound; lia).
    assert (QP : (0 < q)%Z) by (apply Z.div_str_pos; split; [lia|]; nia).
    exists (2 * q + (if r =? 0 then 0 else 1))%Z, (- k - 1)%Z. split; [reflexivity|].
    set (s := (if r =? 0 then 0 else 1)%Z). assert (S01 : (0 <= s <= 1)%Z) by (unfold s; destruct (r =? 0)%Z; lia).
    assert (PW : 0 < F2R (Float radix2 (2 * q + s) (- k - 1))) by (apply F2R_gt_0; cbn [Fnum]; lia).
    split; auto. symmetry.
    assert (VD : bpow ten E = / IZR d).
    { unfold d. rewrite IZR_pow10 by lia. rewrite <- bpow_opp. f_equal. lia. }
    assert (PDR : 0 < IZR d) by (apply IZR_lt; lia).
    apply (f_equal IZR) in DM. rewrite mult_IZR, plus_IZR, mult_IZR, IZR_pow2 in DM by auto.
    apply IZR_le in SE. rewrite !mult_IZR, (IZR_pow2 k), (IZR_pow2 63) in SE by lia.
    destruct RB as (R1 & R2). pose proof R1 as R1'. apply IZR_le in R1. apply IZR_lt in R2.
    set (v := IZR M * bpow ten E) in *.
    assert (EV : v * bpow radix2 k = IZR q + IZR r / IZR d).
    { unfold v. rewrite VD. replace (IZR M * / IZR d * bpow radix2 k) with ((IZR M * bpow radix2 k) * / IZR d) by ring. rewrite DM. field. lra. }
    assert (EW : F2R (Float radix2 (2 * q + s) (- k - 1)) * bpow radix2 k = IZR q + IZR s / 2).
    { unfold F2R. cbn [Fnum Fexp]. rewrite Rmult_assoc, <- bpow_plus. replace (- k - 1 + k)%Z with (-1)%Z by lia.
      change (bpow radix2 (-1)) with (/ 2). rewrite plus_IZR, mult_IZR. field. }
    assert (RD : 0 <= IZR r / IZR d < 1).
    { split; [apply Rmult_le_pos; [lra|left; now apply Rinv_0_lt_compat]|]. apply (Rmult_lt_reg_r (IZR d)); [lra|]. unfold Rdiv. rewrite Rmult_assoc, Rinv_l by lra. lra. }
    assert (RZ : IZR r / IZR d = 0 <-> s = 0%Z).
    { unfold s. destruct (Z.eqb_spec r 0) as [->|N]; [split; auto; intros _; unfold Rdiv; ring|].
      split; [|discriminate]. intros Y. exfalso. assert (X : IZR r = 0) by (rewrite <- (Rmult_0_l (IZR d)), <- Y; field; lra). apply eq_IZR in X. auto. }
    apply (alike_round v _ (- k)); auto; rewrite Z.opp_involutive.
    + rewrite EV. apply (Rmult_le_reg_r (IZR d)); [lra|]. replace ((IZR q + IZR r / IZR d) * IZR d) with (IZR d * IZR q + IZR r) by (field; lra). lra.
    + rewrite EV, EW. set (f := IZR r / IZR d) in *.
      assert (SC : f = 0 /\ s = 0%Z \/ 0 < f < 1 /\ s = 1%Z).
      { destruct (Z.eq_dec s 0) as [S0|S0]; [left; split; auto; now apply RZ|right]. split; [|lia]. destruct RD as ([X|X] & Y); [lra|]. exfalso. apply S0, RZ. auto. }
      intros i. destruct SC as [(-> & ->)|(F & ->)]; [replace (0 / 2) with 0 by field; tauto|].
      destruct (Z_lt_le_dec q i) as [L|L].
      * assert (X : (q + 1 <= i)%Z) by lia. apply IZR_le in X. rewrite plus_IZR in X. split; split; intros; lra.
      * apply IZR_le in L. split; split; intros; lra.
Qed.

(** Decimals of the same value give the same double. *)
Lemma decimal_value_only : forall neg M E M' E', (0 < M)%Z -> (-5000 <= E <= 5000)%Z -> (0 < M')%Z -> (-5000 <= E' <= 5000)%Z ->
  IZR M * bpow ten E = IZR M' * bpow ten E' -> F_decimal neg M E = F_decimal neg M' E'.
Proof.
  intros neg M E M' E' PM BE PM' BE' EV.
  destruct (decimal_rounded neg M E PM BE) as (mz & ez & -> & PW & R1). destruct (decimal_rounded neg M' E' PM' BE') as (mz' & ez' & -> & PW' & R2).
  rewrite EV, <- R2 in R1.
  assert (PZ : forall z e, 0 < F2R (Float radix2 z e) -> (0 < z)%Z) by (intros z e H; apply gt_0_F2R in H; exact H).
  apply PZ in PW, PW'.
  rewrite !normalize_equiv.
  pose proof (binary_normalize_correct prec64 emax64 Hprec Hmax mode_NE (if neg then - mz else mz) ez neg) as C1.
  pose proof (binary_normalize_correct prec64 emax64 Hprec Hmax mode_NE (if neg then - mz' else mz') ez' neg) as C2.
  cbv zeta in C1, C2. change (round_mode mode_NE) with ZnearestE in C1, C2.
  assert (RR : round radix2 (SpecFloat.fexp prec64 emax64) ZnearestE (F2R (Float radix2 (if neg then - mz else mz) ez)) =
               round radix2 (SpecFloat.fexp prec64 emax64) ZnearestE (F2R (Float radix2 (if neg then - mz' else mz') ez'))).
  { destruct neg; auto. rewrite !F2R_Zopp, !round_NE_opp. now rewrite R1. }
  rewrite RR in C1.
  assert (SG : forall z e, (0 < z)%Z -> Rcompare (F2R (Float radix2 (if neg then - z else z) e)) 0 = (if neg then Lt else Gt) /\
     Rlt_bool (F2R (Float radix2 (if neg then - z else z) e)) 0 = neg).
  { intros z e P. destruct neg.
    - assert (F2R (Float radix2 (- z) e) < 0) by (apply F2R_lt_0; cbn [Fnum]; lia). split; [now apply Rcompare_Lt|now apply Rlt_bool_true].
    - assert (0 < F2R (Float radix2 z e)) by (apply F2R_gt_0; cbn [Fnum]; lia). split; [now apply Rcompare_Gt|apply Rlt_bool_false; lra]. }
  destruct (SG mz ez PW) as (S1 & S1'). destruct (SG mz' ez' PW') as (S2 & S2'). rewrite S1, S1' in C1. rewrite S2, S2' in C2.
  destruct (Rlt_bool _ _).
  - f_equal. destruct C1 as (A1 & A2 & A3). destruct C2 as (D1 & D2 & D3). apply B2R_Bsign_inj; auto; [now rewrite A1, D1|now rewrite A3, D3].
  - now rewrite C1, C2.
Qed.

(** A decimal within the normal range gives a finite double close to it. *)
Lemma decimal_finite : forall neg M E, (0 < M)%Z -> (-300 <= E)%Z -> IZR M * bpow ten E < bpow ten 305 -> (E <= 5000)%Z ->
  exists m e, F_decimal neg M E = S754_finite neg m e /\ valid64 (S754_finite neg m e) = true /\
    F2R (Float radix2 (Zpos m) e) = round radix2 (SpecFloat.fexp prec64 emax64) ZnearestE (IZR M * bpow ten E) /\
    Rabs (F2R (Float radix2 (Zpos m) e) - IZR M * bpow ten E) <= IZR M * bpow ten E * / 9007199254740992.
Proof.
  intros neg M E PM LE UE UE2. set (v := IZR M * bpow ten E) in *.
  assert (LV : bpow ten (-300) <= v).
  { unfold v. apply Rle_trans with (1 * bpow ten E); [rewrite Rmult_1_l; now apply bpow_le|].
    apply Rmult_le_compat_r; [apply bpow_ge_0|]. apply IZR_le. lia. }
  assert (P300 : bpow radix2 (-1022) <= bpow ten (-300)) by (apply pow_ge_R; vm_compute; reflexivity).
  assert (P305 : bpow ten 305 <= bpow radix2 1023) by (apply pow_le_R; vm_compute; reflexivity).
  pose proof (bpow_gt_0 ten (-300)) as P0. assert (PV : 0 < v) by lra.
  assert (RE : Rabs (round radix2 (SpecFloat.fexp prec64 emax64) ZnearestE v - v) <= v * / 9007199254740992).
  { pose proof (relative_error_N_FLT radix2 (-1074) 53 eq_refl (fun x => negb (Z.even x)) v) as H.
    change (FLT_exp (-1074) 53) with (SpecFloat.fexp prec64 emax64) in H. rewrite Rabs_pos_eq in H by lra.
    specialize (H ltac:(change (-1074 + 53 - 1)%Z with (-1022)%Z; lra)). change (- (53) + 1)%Z with (-52)%Z in H.
    rewrite <- two53. replace (v * bpow radix2 (-53)) with (/ 2 * bpow radix2 (-52) * v); auto.
    change (-53)%Z with (-1 + -52)%Z. rewrite bpow_plus. change (bpow radix2 (-1)) with (/ 2). ring. }
  set (X := round radix2 (SpecFloat.fexp prec64 emax64) ZnearestE v) in *.
  assert (XP : 0 < X) by (revert RE; unfold Rabs; destruct (Rcase_abs _); lra).
  destruct (decimal_rounded neg M E PM ltac:(lia)) as (mz & ez & EF & PW & R1). fold v X in R1.
  rewrite EF, normalize_equiv.
  pose proof (binary_normalize_correct prec64 emax64 Hprec Hmax mode_NE (if neg then - mz else mz) ez neg) as C1.
  cbv zeta in C1. change (round_mode mode_NE) with ZnearestE in C1.
  assert (RR : round radix2 (SpecFloat.fexp prec64 emax64) ZnearestE (F2R (Float radix2 (if neg then - mz else mz) ez)) = if neg then - X else X).
  { destruct neg; auto. rewrite !F2R_Zopp, !round_NE_opp. now rewrite R1. }
  rewrite RR in C1. rewrite Rlt_bool_true in C1.
  2: { apply Rle_lt_trans with X; [destruct neg; [rewrite Rabs_Ropp|]; rewrite Rabs_pos_eq; lra|].
       apply Rlt_le_trans with (bpow radix2 1024); [|apply Rle_refl]. change 1024%Z with (1 + 1023)%Z. rewrite bpow_plus. change (bpow radix2 1) with 2.
       revert RE. unfold Rabs. destruct (Rcase_abs _); lra. }
  destruct C1 as (A1 & A2 & A3). set (z := BinarySingleNaN.binary_normalize _ _ _ _ _ _ _ _) in *.
  assert (SG : Rcompare (F2R (Float radix2 (if neg then - mz else mz) ez)) 0 = if neg then Lt else Gt).
  { destruct neg; [apply Rcompare_Lt; rewrite F2R_Zopp; lra|now apply Rcompare_Gt]. }
  rewrite SG in A3. destruct z as [sz|sz| |sz m e BD]; try discriminate A2.
  { cbn [B2R] in A1. destruct neg; lra. }
  cbn [Bsign] in A3. assert (sz = neg) as -> by (destruct neg; exact A3). exists m, e. cbn [B2SF]. split; auto. split; [exact BD|].
  assert (EX : F2R (Float radix2 (Zpos m) e) = X).
  { cbn [B2R] in A1. destruct neg; cbn [cond_Zopp] in A1; auto. rewrite F2R_Zopp in A1. lra. }
  rewrite EX. auto.
Qed.

(** str() keeps every number of up to twelve significant digits. *)
Theorem py_str_read : forall neg M E, (0 <= M < 10 ^ 12)%Z -> (-300 <= E <= 290)%Z ->
  py_float (py_str (F_decimal neg M E)) = Some (F_decimal neg M E).
Proof.
  intros neg M E (M0 & MB) (E1 & E2). destruct (Z.eq_dec M 0) as [->|NM].
  { change (F_decimal neg 0 E) with (S754_zero neg). destruct neg; vm_compute; reflexivity. }
  assert (PM : (0 < M)%Z) by lia.
  assert (VU : IZR M * bpow ten E < bpow ten 305).
  { apply Rlt_le_trans with (bpow ten 12 * bpow ten E).
    - apply Rmult_lt_compat_r; [apply bpow_gt_0|]. rewrite <- IZR_pow10 by lia. now apply IZR_lt.
    - rewrite <- bpow_plus. apply bpow_le. lia. }
  destruct (decimal_finite neg M E PM E1 VU ltac:(lia)) as (m & e & EF & VD & EX & RE).
  set (v := IZR M * bpow ten E) in *. rewrite EF.
  destruct (finite_range neg m e VD) as (U1 & U2 & G). set (X := F2R (Float radix2 (Zpos m) e)) in *.
  destruct (sig_digits_spec 12 m e ltac:(lia) U1 U2) as (d & k & k0 & ES & DR & KR & KB & XB & NR). fold X in XB, NR.
  unfold py_str, format_g. rewrite ES.
  destruct (layout_read 12 12 d k DR ltac:(lia)) as (M' & E' & PM' & RD & (x & y & PX & PY & EV & EE) & EB).
  rewrite RD. f_equal. rewrite <- EF. apply decimal_value_only; auto; try lia. fold v.
  assert (VV : IZR M' * bpow ten E' = IZR d * bpow ten (k + 1 - 12)).
  { apply (f_equal IZR) in EV. rewrite !mult_IZR, !IZR_pow10 in EV by auto.
    replace E' with (x + (E' - x))%Z by lia. rewrite EE, bpow_plus, <- Rmult_assoc, EV, Rmult_assoc, <- bpow_plus. f_equal. f_equal. lia. }
  rewrite VV. set (b := bpow ten (k0 + 1 - 12)). assert (PB : 0 < b) by apply bpow_gt_0.
  assert (X0 : 0 < X) by (pose proof (bpow_gt_0 ten k0); lra).
  assert (BK : forall j, bpow ten (k0 + j) = bpow ten (j + 11) * b) by (intros j; unfold b; rewrite <- bpow_plus; f_equal; lia).
  assert (XLO : 100000000000 * b <= X) by (pose proof (BK 0%Z) as H; rewrite Z.add_0_r in H; change (bpow ten (0 + 11)) with 100000000000 in H; lra).
  assert (XHI : X < 1000000000000 * b) by (pose proof (BK 1%Z) as H; change (bpow ten (1 + 11)) with 1000000000000 in H; lra).
  (* v is a whole number of units b *)
  assert (LE : (k0 + 1 - 12 <= E)%Z).
  { apply Znot_gt_le. intros C. assert (H : bpow ten 1 * bpow ten E <= b) by (rewrite <- bpow_plus; apply bpow_le; lia). change (bpow ten 1) with 10 in H.
    assert (MR : IZR M <= 999999999999) by (apply IZR_le; lia). assert (PE := bpow_gt_0 ten E).
    assert (v <= 999999999999 * bpow ten E) by (unfold v; apply Rmult_le_compat_r; lra).
    revert RE. unfold Rabs. destruct (Rcase_abs _); lra. }
  assert (ZV : v = IZR (M * 10 ^ (E - (k0 + 1 - 12))) * b).
  { unfold v, b. rewrite mult_IZR, IZR_pow10 by lia. rewrite Rmult_assoc, <- bpow_plus. f_equal. f_equal. lia. }
  assert (ZD : IZR d * bpow ten (k + 1 - 12) = IZR (d * 10 ^ (k - k0)) * b).
  { unfold b. rewrite mult_IZR, IZR_pow10 by lia. rewrite Rmult_assoc, <- bpow_plus. f_equal. f_equal. lia. }
  fold b in NR. rewrite ZD in NR |- *. rewrite ZV in RE |- *.
  set (i := (d * 10 ^ (k - k0))%Z) in *. set (j := (M * 10 ^ (E - (k0 + 1 - 12)))%Z) in *.
  assert (IJ : Rabs (IZR i - IZR j) < 1).
  { apply (Rmult_lt_reg_r b); auto. rewrite <- (Rabs_pos_eq b) at 1 by lra. rewrite <- Rabs_mult. rewrite Rmult_minus_distr_r.
    set (a1 := IZR i * b) in *. set (a2 := IZR j * b) in *.
    revert RE NR. unfold Rabs. repeat destruct (Rcase_abs _); lra. }
  assert (i = j) as ->; auto. rewrite <- minus_IZR in IJ. apply Rabs_lt_inv in IJ. destruct IJ as (I1 & I2).
  rewrite <- opp_IZR in I1. apply lt_IZR in I1, I2. lia.
Qed.
