(** A number printed by str(), read back and printed again gives the same text. *)
From Coq Require Import ZArith Bool Ascii String List Lia Reals Lra.
From Coq Require Import Floats.SpecFloat.
From Flocq Require Import Core IEEE754.BinarySingleNaN Relative.
From Verif Require Import Base Ops FloatOps PyStr PyStrProofs PyFloat PyDecimal PyNearest PyRound ReuseSpec.
From Coq Require Import List.
Import ListNotations.
Local Open Scope R_scope.

Lemma same_decimal : forall n d k d' k' k0, (0 < n)%Z -> (10 ^ (n - 1) <= d < 10 ^ n)%Z -> (10 ^ (n - 1) <= d' < 10 ^ n)%Z ->
  (k0 <= k)%Z -> (k0 <= k')%Z -> (d * 10 ^ (k - k0) = d' * 10 ^ (k' - k0))%Z -> d = d' /\ k = k'.
Proof.
  assert (A : forall n d k d' k' k0, (0 < n)%Z -> (10 ^ (n - 1) <= d < 10 ^ n)%Z -> (10 ^ (n - 1) <= d' < 10 ^ n)%Z ->
    (k0 <= k)%Z -> (k < k')%Z -> (d * 10 ^ (k - k0) = d' * 10 ^ (k' - k0))%Z -> False).
  { intros n d k d' k' k0 N D D' K K' E. replace (k' - k0)%Z with ((k' - k - 1) + 1 + (k - k0))%Z in E by lia.
    rewrite !Z.pow_add_r in E by lia. assert (P : (0 < 10 ^ (k - k0))%Z) by (apply Z.pow_pos_nonneg; lia).
    rewrite !Z.mul_assoc in E. apply Z.mul_reg_r in E; [|lia].
    assert (Q : (0 < 10 ^ (k' - k - 1))%Z) by (apply Z.pow_pos_nonneg; lia).
    assert (TN : (10 ^ n = 10 ^ (n - 1) * 10)%Z) by (replace n with (n - 1 + 1)%Z at 1 by lia; now rewrite Z.pow_add_r by lia).
    rewrite TN in D, D'.
    change (10 ^ 1)%Z with 10%Z in E. nia. }
  intros n d k d' k' k0 N D D' K K' E. destruct (Z.lt_trichotomy k k') as [L|[->|L]].
  - destruct (A n d k d' k' k0 N D D' K L E).
  - split; auto. apply Z.mul_reg_r in E; auto. assert (0 < 10 ^ (k' - k0))%Z by (apply Z.pow_pos_nonneg; lia). lia.
  - destruct (A n d' k' d k k0 N D' D K' L (eq_sym E)).
Qed.

Lemma finite_again : forall s m e, valid64 (S754_finite s m e) = true ->
  bpow ten (-280) <= F2R (Float radix2 (Zpos m) e) < bpow ten 300 ->
  exists y, py_float (py_str (S754_finite s m e)) = Some y /\ py_str y = py_str (S754_finite s m e).
Proof.
  intros s m e V (LO & HI).
  destruct (finite_range s m e V) as (U1 & U2 & G). set (X := F2R (Float radix2 (Zpos m) e)) in *.
  destruct (sig_digits_spec 12 m e ltac:(lia) U1 U2) as (d & k & k0 & ES & DR & KR & KB & XB & NR). fold X in XB, NR.
  assert (K1 : (-281 < k0)%Z) by (assert (H : bpow ten (-280) < bpow ten (k0 + 1)) by lra; apply lt_bpow in H; lia).
  assert (K2 : (k0 < 300)%Z) by (assert (H : bpow ten k0 < bpow ten 300) by lra; apply lt_bpow in H; lia).
  unfold py_str at 1. unfold format_g. rewrite ES.
  destruct (layout_read 12 12 d k DR ltac:(lia)) as (M' & E' & PM' & RD & (x & y & PX & PY & EV & EE) & EB).
  rewrite RD.
  assert (PD : (0 < d)%Z) by (change (10 ^ (12 - 1))%Z with 100000000000%Z in DR; lia).
  assert (VV : IZR M' * bpow ten E' = IZR d * bpow ten (k + 1 - 12)).
  { apply (f_equal IZR) in EV. rewrite !mult_IZR, !IZR_pow10 in EV by auto.
    replace E' with (x + (E' - x))%Z by lia. rewrite EE, bpow_plus, <- Rmult_assoc, EV, Rmult_assoc, <- bpow_plus. f_equal. f_equal. lia. }
  rewrite (decimal_value_only s M' E' d (k + 1 - 12) PM' ltac:(lia) PD ltac:(lia) VV).
  exists (F_decimal s d (k + 1 - 12)). split; auto.
  assert (DV : IZR d * bpow ten (k + 1 - 12) < bpow ten (k + 1)).
  { replace (bpow ten (k + 1)) with (bpow ten 12 * bpow ten (k + 1 - 12)) by (rewrite <- bpow_plus; f_equal; lia).
    apply Rmult_lt_compat_r; [apply bpow_gt_0|]. rewrite <- IZR_pow10 by lia. apply IZR_lt. lia. }
  assert (VU : IZR d * bpow ten (k + 1 - 12) < bpow ten 305).
  { eapply Rlt_le_trans; [exact DV|]. apply bpow_le. lia. }
  destruct (decimal_finite s d (k + 1 - 12) PD ltac:(lia) VU ltac:(lia)) as (m' & e' & EF & VD & EX & RE).
  rewrite EF. destruct (finite_range s m' e' VD) as (U1' & U2' & G'). set (Y := F2R (Float radix2 (Zpos m') e')) in *.
  destruct (sig_digits_spec 12 m' e' ltac:(lia) U1' U2') as (d' & k' & k0' & ES' & DR' & KR' & KB' & XB' & NR'). fold Y in XB', NR'.
  set (v := IZR d * bpow ten (k + 1 - 12)) in *.
  assert (U : v + bpow ten (k + 1 - 12) <= bpow ten (k + 1)).
  { unfold v. replace (bpow ten (k + 1)) with (bpow ten 12 * bpow ten (k + 1 - 12)) by (rewrite <- bpow_plus; f_equal; lia).
    rewrite <- (Rmult_1_l (bpow ten (k + 1 - 12))) at 2. rewrite <- Rmult_plus_distr_r. apply Rmult_le_compat_r; [apply bpow_ge_0|].
    rewrite <- IZR_pow10 by lia. rewrite <- (plus_IZR d 1). apply IZR_le. lia. }
  assert (PU := bpow_gt_0 ten (k + 1 - 12)).
  assert (V12 : v < 1000000000000 * bpow ten (k + 1 - 12)).
  { unfold v. apply Rmult_lt_compat_r; auto. apply IZR_lt. change (10 ^ 12)%Z with 1000000000000%Z in DR. lia. }
  assert (V0 : 0 < v) by (unfold v; apply Rmult_lt_0_compat; auto; now apply IZR_lt).
  assert (KK : (k0' <= k)%Z).
  { assert (H : bpow ten k0' < bpow ten (k + 1)); [|apply lt_bpow in H; lia].
    eapply Rle_lt_trans; [apply XB'|]. apply Rlt_le_trans with (v + bpow ten (k + 1 - 12)); [|exact U].
    revert RE. unfold Rabs. destruct (Rcase_abs _); lra. }
  set (b := bpow ten (k0' + 1 - 12)) in *. assert (PB : 0 < b) by apply bpow_gt_0.
  assert (ZV : v = IZR (d * 10 ^ (k - k0')) * b).
  { unfold v, b. rewrite mult_IZR, IZR_pow10 by lia. rewrite Rmult_assoc, <- bpow_plus. f_equal. f_equal. lia. }
  assert (ZD : IZR d' * bpow ten (k' + 1 - 12) = IZR (d' * 10 ^ (k' - k0')) * b).
  { unfold b. rewrite mult_IZR, IZR_pow10 by lia. rewrite Rmult_assoc, <- bpow_plus. f_equal. f_equal. lia. }
  assert (YHI : Y < 1000000000000 * b).
  { replace (1000000000000 * b) with (bpow ten (k0' + 1)); [apply XB'|]. unfold b. change 1000000000000 with (bpow ten 12). rewrite <- bpow_plus. f_equal. lia. }
  rewrite ZD in NR'. rewrite ZV in RE, V0.
  set (i := (d' * 10 ^ (k' - k0'))%Z) in *. set (j := (d * 10 ^ (k - k0'))%Z) in *.
  assert (IJ : Rabs (IZR i - IZR j) < 1).
  { apply (Rmult_lt_reg_r b); auto. rewrite <- (Rabs_pos_eq b) at 1 by lra. rewrite <- Rabs_mult. rewrite Rmult_minus_distr_r.
    set (a1 := IZR i * b) in *. set (a2 := IZR j * b) in *.
    revert RE NR'. unfold Rabs. repeat destruct (Rcase_abs _); lra. }
  assert (EIJ : i = j).
  { rewrite <- minus_IZR in IJ. apply Rabs_lt_inv in IJ. destruct IJ as (I1 & I2). rewrite <- opp_IZR in I1. apply lt_IZR in I1, I2. lia. }
  destruct (same_decimal 12 d k d' k' k0' ltac:(lia) DR DR' KK ltac:(lia) (eq_sym EIJ)) as (<- & <-).
  unfold py_str, format_g. now rewrite ES, ES'.
Qed.

Theorem printed_again : forall x, ordinary_size x -> exists y, py_float (py_str x) = Some y /\ py_str y = py_str x.
Proof.
  intros [s|s| |s m e] H.
  - exists (S754_zero s). destruct s; split; vm_compute; reflexivity.
  - exists (S754_infinity s). destruct s; split; vm_compute; reflexivity.
  - exists S754_nan. split; vm_compute; reflexivity.
  - destruct H as (V & L & U). apply finite_again; auto. cbn [SF2R] in L, U. 
    assert (P : 0 < F2R (Float radix2 (Zpos m) e)) by (apply F2R_gt_0; reflexivity).
    replace (Rabs (F2R (Float radix2 (cond_Zopp s (Zpos m)) e))) with (F2R (Float radix2 (Zpos m) e)) in L, U; [split; assumption|].
    destruct s; cbn [cond_Zopp]; [rewrite F2R_Zopp, Rabs_Ropp|]; rewrite Rabs_pos_eq; lra.
Qed.
