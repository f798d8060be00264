(** Doubles close to a real number: bounds that are good enough to compare numbers a few hundredths apart. *)
From Coq Require Import ZArith Bool List Lia Reals Lra.
From Coq Require Import Floats.SpecFloat.
From Flocq Require Import Core IEEE754.BinarySingleNaN Relative.
From Verif Require Import Base Ops FloatOps PyFloat PyDecimal PyNearest FReal FInt.
Local Open Scope R_scope.

Local Instance Hprec : FLX.Prec_gt_0 prec64 := eq_refl _.
Local Instance Hmax : Prec_lt_emax prec64 emax64 := eq_refl _.
Local Instance Hp53 : FLX.Prec_gt_0 53 := eq_refl _.
Local Instance fexp64_valid : Valid_exp fexp64 := FLT_exp_valid (-1074) 53.

Notation nano := (/ 1000000000).

Lemma rnd_near : forall v, Rabs v <= 2000000 -> Rabs (rnd v - v) <= 3 / 10000000000.
Proof.
  intros v H. destruct (error_N_FLT radix2 (-1074) 53 Hp53 (fun x => negb (Z.even x)) v) as (eps & eta & E1 & E2 & _ & E3).
  change (round radix2 (FLT_exp (-1074) 53) ZnearestE v) with (rnd v) in E3. rewrite E3.
  replace (v * (1 + eps) + eta - v) with (eps * v + eta) by ring.
  eapply Rle_trans; [apply Rabs_triang|]. rewrite Rabs_mult.
  assert (A1 : Rabs eps <= / 9007199254740992) by (eapply Rle_trans; [exact E1|]; cbn; lra).
  assert (A2 : Rabs eta <= / 100000000000).
  { eapply Rle_trans; [exact E2|]. apply Rle_trans with (/ 2 * bpow radix2 (-40)).
    - apply Rmult_le_compat_l; [lra|]. apply bpow_le. lia.
    - cbn. lra. }
  assert (Rabs eps * Rabs v <= / 9007199254740992 * 2000000) by (apply Rmult_le_compat; auto using Rabs_pos).
  lra.
Qed.

Lemma rnd_id : forall z, (Z.abs z <= 2 ^ 53)%Z -> rnd (IZR z) = IZR z.
Proof. intros z H. apply round_generic; [apply valid_rnd_N|now apply format_Z]. Qed.

Lemma small_real : forall v, Rabs v <= 2000000 -> Rabs (rnd v) < max64.
Proof.
  intros v H. assert (N := rnd_near v H). apply Rle_lt_trans with (bpow radix2 21); [|apply bpow_lt; lia].
  replace (rnd v) with ((rnd v - v) + v) by ring. eapply Rle_trans; [apply Rabs_triang|]. cbn. lra.
Qed.

(** The double x is at most e away from v. *)
Definition near (x : spec_float) (v e : R) : Prop := finite64 x /\ v - e <= val x <= v + e.

Lemma near_ofZ : forall z, (Z.abs z <= 2 ^ 53)%Z -> near (F_ofZ z) (IZR z) 0.
Proof. intros z H. destruct (ofZ_real z H) as (F & V). split; auto. rewrite V. lra. Qed.

Lemma near_add : forall x y a b e f, near x a e -> near y b f -> -1000000 <= a + b <= 1000000 -> e + f <= 1000 ->
  near (SFadd prec64 emax64 x y) (a + b) (e + f + nano).
Proof.
  intros x y a b e f (FX & VX) (FY & VY) B EF.
  assert (S : Rabs (val x + val y) <= 2000000) by (apply Rabs_le; lra).
  destruct (add_real x y FX FY (small_real _ S)) as (F & V). split; auto. rewrite V. assert (N := Rabs_le_inv _ _ (rnd_near _ S)). lra.
Qed.

Lemma near_sub : forall x y a b e f, near x a e -> near y b f -> -1000000 <= a - b <= 1000000 -> e + f <= 1000 ->
  near (SFsub prec64 emax64 x y) (a - b) (e + f + nano).
Proof.
  intros x y a b e f (FX & VX) (FY & VY) B EF.
  assert (S : Rabs (val x - val y) <= 2000000) by (apply Rabs_le; lra).
  destruct (sub_real x y FX FY (small_real _ S)) as (F & V). split; auto. rewrite V. assert (N := Rabs_le_inv _ _ (rnd_near _ S)). lra.
Qed.

(** Times a number between 0 and c. *)
Lemma near_mul : forall x y a b f c, near x a 0 -> near y b f -> 0 <= a <= c -> -1000000 <= a * b <= 1000000 -> c * f <= 1000 ->
  0 <= f -> near (SFmul prec64 emax64 x y) (a * b) (c * f + nano).
Proof.
  intros x y a b f c (FX & VX) (FY & VY) A B CF F0. assert (VA : val x = a) by lra. rewrite <- VA in *. clear VX a VA.
  assert (D : val x * b - c * f <= val x * val y <= val x * b + c * f) by (split; nra).
  assert (S : Rabs (val x * val y) <= 2000000) by (apply Rabs_le; lra).
  destruct (mul_real x y FX FY (small_real _ S)) as (F & V). split; auto. rewrite V. assert (N := Rabs_le_inv _ _ (rnd_near _ S)). lra.
Qed.

Lemma near_div_exact : forall x y a b, near x a 0 -> near y b 0 -> b <> 0 -> -1000000 <= a / b <= 1000000 ->
  near (SFdiv prec64 emax64 x y) (a / b) nano.
Proof.
  intros x y a b (FX & VX) (FY & VY) B0 B. assert (VA : val x = a) by lra. assert (VB : val y = b) by lra. rewrite <- VA, <- VB in *.
  assert (S : Rabs (val x / val y) <= 2000000) by (apply Rabs_le; lra).
  destruct (div_real x y FX FY) as (F & V); [exact B0|exact (small_real _ S)|]. split; auto. rewrite V. assert (N := Rabs_le_inv _ _ (rnd_near _ S)). lra.
Qed.

(** Divided by a number close to a tenth. *)
Lemma near_div_tenth : forall x y a e, near x a e -> near y (1 / 10) (2 * nano) -> 0 <= a <= 100 -> 0 <= e <= 1 ->
  near (SFdiv prec64 emax64 x y) (10 * a) (11 * e + 1 / 10000).
Proof.
  intros x y a e (FX & VX) (FY & VY) A E.
  assert (P : 0 < val y) by lra.
  assert (I : 10 - 3 / 10000000 <= / val y <= 10 + 3 / 10000000).
  { split; (apply (Rmult_le_reg_r (val y)); [exact P|]; rewrite Rinv_l by lra; nra). }
  assert (D : 10 * a - (11 * e + 3 / 100000) <= val x * / val y <= 10 * a + (11 * e + 3 / 100000)).
  { set (i := / val y) in *. set (u := val x - a). assert (U : - e <= u <= e) by (unfold u; lra).
    replace (val x * i) with (u * i + a * (i - 10) + 10 * a) by (unfold u; ring).
    assert (- (11 * e) <= u * i <= 11 * e) by (split; nra).
    assert (- (3 / 100000) <= a * (i - 10) <= 3 / 100000) by (split; nra). lra. }
  change (val x * / val y) with (val x / val y) in D.
  assert (S : Rabs (val x / val y) <= 2000000) by (apply Rabs_le; lra).
  destruct (div_real x y FX FY) as (F & V); [lra|exact (small_real _ S)|]. split; auto. rewrite V. assert (N := Rabs_le_inv _ _ (rnd_near _ S)). lra.
Qed.

Lemma near_weaken : forall x v e f, near x v e -> e <= f -> near x v f.
Proof. intros x v e f (F & V) L. split; auto. lra. Qed.

Lemma near_eq : forall x v w e, near x v e -> v = w -> near x w e.
Proof. intros x v w e H <-. exact H. Qed.

Lemma near_ltb : forall x y a b e f, near x a e -> near y b f -> a + e + f < b -> SFltb x y = true.
Proof. intros x y a b e f (FX & VX) (FY & VY) L. rewrite (ltb_real x y FX FY). apply Rlt_bool_true. lra. Qed.

Lemma near_nltb : forall x y a b e f, near x a e -> near y b f -> b + e + f <= a -> SFltb x y = false.
Proof. intros x y a b e f (FX & VX) (FY & VY) L. rewrite (ltb_real x y FX FY). apply Rlt_bool_false. lra. Qed.

Lemma near_leb : forall x y a b e f, near x a e -> near y b f -> a + e + f <= b -> SFleb x y = true.
Proof. intros x y a b e f (FX & VX) (FY & VY) L. rewrite (leb_real x y FX FY). apply Rle_bool_true. lra. Qed.

Lemma near_nleb : forall x y a b e f, near x a e -> near y b f -> b + e + f < a -> SFleb x y = false.
Proof. intros x y a b e f (FX & VX) (FY & VY) L. rewrite (leb_real x y FX FY). apply Rle_bool_false. lra. Qed.

(** The next whole number above a positive double. *)
Lemma ceil_real : forall x z, finite64 x -> (0 <= z <= 2 ^ 50)%Z -> IZR z < val x <= IZR (z + 1) -> F_toZ (F_ceil x) = (z + 1)%Z.
Proof.
  intros x z (V & F) Z0 B. assert (ZP : 0 <= IZR z) by (apply (IZR_le 0); lia). destruct x as [s|s| |s m e]; try discriminate F.
  - cbn [SF2R] in B. lra.
  - destruct s.
    { exfalso. cbn [SF2R] in B. assert (X : F2R (Float radix2 (cond_Zopp true (Z.pos m)) e) < 0) by (apply F2R_lt_0; cbn; lia). lra. }
    unfold F_ceil. cbn [F_round]. destruct (F_split m e) as ((q, r), d) eqn:S1. destruct (split_real _ _ _ _ _ S1) as (D & R1 & Q & X).
    cbn [SF2R cond_Zopp] in B. rewrite X in B. clear X S1.
    assert (PD : 0 < IZR d) by (now apply IZR_lt).
    assert (F01 : 0 <= IZR r / IZR d < 1).
    { destruct R1 as (A & A'). apply IZR_le in A. apply IZR_lt in A'. split; [apply Rmult_le_pos; [lra|left; now apply Rinv_0_lt_compat]|].
      apply (Rmult_lt_reg_r (IZR d)); auto. unfold Rdiv. rewrite Rmult_assoc, Rinv_l by lra. lra. }
    set (w := if (r =? 0)%Z then q else (q + 1)%Z).
    assert (W : w = (z + 1)%Z).
    { unfold w. rewrite plus_IZR in B. destruct (Z.eqb_spec r 0) as [R0|R0].
      - subst r. assert (z < q < z + 2)%Z; [|lia]. split; apply lt_IZR; rewrite ?plus_IZR; unfold Rdiv in *; lra.
      - assert (RP : 0 < IZR r / IZR d) by (apply Rdiv_lt_0_compat; auto; apply (IZR_lt 0); lia).
        assert (z - 1 < q < z + 1)%Z; [|lia]. split; apply lt_IZR; rewrite ?plus_IZR, ?minus_IZR; lra. }
    rewrite W. unfold F_int. destruct (Z.eqb_spec (z + 1) 0) as [E|N]; [lia|]. apply toZ_ofZ. lia.
Qed.
