(** Stepp's magnitude bins in binary64: every event is counted in exactly one of them (C132). *)
From Coq Require Import ZArith Arith Bool List Lia Reals Lra.
From Coq Require Import Floats.SpecFloat.
From Flocq Require Import Core IEEE754.BinarySingleNaN.
From Verif Require Import Base Ops FloatOps PyFloat PyDecimal PyNearest Completeness FReal FInt FNear DoubleSpec.
Import ListNotations.
Local Open Scope R_scope.

Local Instance Hp53 : FLX.Prec_gt_0 53 := eq_refl _.
Local Instance fexp64_valid : Valid_exp fexp64 := FLT_exp_valid (-1074) 53.

(** ** Whole numbers *)

Lemma int_real : forall s z, (Z.abs z <= 2 ^ 53)%Z -> finite64 (F_int s z) /\ val (F_int s z) = IZR z.
Proof.
  intros s z H. unfold F_int. destruct (Z.eqb_spec z 0) as [->|N]; [|now apply ofZ_real].
  split; [split; reflexivity|reflexivity].
Qed.

(** The parts of a double: |x| = q + f with 0 <= f < 1. *)
Lemma round_real : forall (rd : bool -> Z -> Z -> Z -> Z) x, finite64 x -> Rabs (val x) <= 2000000 ->
  (forall s q r d, (0 <= r < d)%Z -> (q <= rd s q r d <= q + 1)%Z) ->
  finite64 (F_round rd x) /\ exists z, val (F_round rd x) = IZR z /\
    ((val x = 0 /\ z = 0%Z) \/
     exists (s : bool) q r d, (0 <= r < d)%Z /\ (0 <= q)%Z /\ val x = (if s then - (IZR q + IZR r / IZR d) else IZR q + IZR r / IZR d) /\
       z = (if s then - rd s q r d else rd s q r d)%Z).
Proof.
  intros rd x (V & F) B H. destruct x as [s|s| |s m e]; try discriminate F.
  - split; [split; reflexivity|]. exists 0%Z. split; [reflexivity|]. now left.
  - cbn [F_round]. destruct (F_split m e) as ((q, r), d) eqn:S1. destruct (split_real _ _ _ _ _ S1) as (D & R1 & Q & W).
    assert (VX : val (S754_finite s m e) = (if s then - (IZR q + IZR r / IZR d) else IZR q + IZR r / IZR d)).
    { cbn [SF2R]. rewrite <- W. destruct s; cbn [cond_Zopp]; auto. rewrite <- F2R_Zopp. reflexivity. }
    specialize (H s q r d R1).
    assert (F0 : 0 <= IZR r / IZR d).
    { apply Rmult_le_pos; [apply (IZR_le 0); lia|]. left. apply Rinv_0_lt_compat. apply (IZR_lt 0). lia. }
    assert (QB : (q <= 2000000)%Z).
    { apply le_IZR. rewrite VX in B. destruct s; [rewrite Rabs_Ropp in B|]; rewrite Rabs_pos_eq in B; try lra; assert (0 <= IZR q) by (apply (IZR_le 0); lia); lra. }
    set (z := (if s then - rd s q r d else rd s q r d)%Z).
    destruct (int_real s z) as (I1 & I2). { unfold z. destruct s; lia. }
    split; auto. exists z. split; auto. right. exists s, q, r, d. split; auto.
Qed.

Lemma frac_bounds : forall r d, (0 <= r < d)%Z -> 0 <= IZR r / IZR d < 1 /\ (r = 0%Z -> IZR r / IZR d = 0) /\ (r <> 0%Z -> 0 < IZR r / IZR d).
Proof.
  intros r d (A & B). assert (P : 0 < IZR d) by (apply (IZR_lt 0); lia). apply IZR_le in A as A'. apply IZR_lt in B as B'. split; [split|split].
  - apply Rmult_le_pos; [lra|left; now apply Rinv_0_lt_compat].
  - apply (Rmult_lt_reg_r (IZR d)); auto. unfold Rdiv. rewrite Rmult_assoc, Rinv_l by lra. lra.
  - intros ->. unfold Rdiv. lra.
  - intros N. apply Rdiv_lt_0_compat; auto. apply (IZR_lt 0). lia.
Qed.

Lemma floor_real : forall x, finite64 x -> Rabs (val x) <= 2000000 ->
  finite64 (F_floor x) /\ exists z, val (F_floor x) = IZR z /\ IZR z <= val x < IZR z + 1.
Proof.
  intros x F B. destruct (round_real (fun s q r _ => if s then (if r =? 0 then q else q + 1) else q)%Z x F B) as (F1 & z & V & K).
  { intros s q r d H. destruct s; [destruct (r =? 0)%Z|]; lia. }
  split; auto. exists z. split; auto. destruct K as [(-> & ->)|(s & q & r & d & H & Q & -> & ->)]; [lra|].
  destruct (frac_bounds r d H) as (F01 & Z1 & Z2). destruct s; [|lra]. destruct (Z.eqb_spec r 0) as [E|N]; rewrite opp_IZR, ?plus_IZR; [rewrite (Z1 E); lra|].
  specialize (Z2 N). lra.
Qed.

Lemma ceil_bound : forall x, finite64 x -> Rabs (val x) <= 2000000 ->
  finite64 (F_ceil x) /\ exists z, val (F_ceil x) = IZR z /\ IZR z - 1 < val x <= IZR z.
Proof.
  intros x F B. destruct (round_real (fun s q r _ => if s then q else (if r =? 0 then q else q + 1))%Z x F B) as (F1 & z & V & K).
  { intros s q r d H. destruct s; [|destruct (r =? 0)%Z]; lia. }
  split; auto. exists z. split; auto. destruct K as [(-> & ->)|(s & q & r & d & H & Q & -> & ->)]; [lra|].
  destruct (frac_bounds r d H) as (F01 & Z1 & Z2). destruct s; [rewrite opp_IZR; lra|]. destruct (Z.eqb_spec r 0) as [E|N]; rewrite ?plus_IZR; [rewrite (Z1 E); lra|].
  specialize (Z2 N). lra.
Qed.

Lemma rint_bound : forall x, finite64 x -> Rabs (val x) <= 2000000 ->
  finite64 (F_rint x) /\ exists z, val (F_rint x) = IZR z /\ val x - 1 <= IZR z <= val x + 1.
Proof.
  intros x F B. destruct (round_real (fun _ q r d => match (2 * r) ?= d with Lt => q | Gt => q + 1 | Eq => if Z.even q then q else q + 1 end)%Z x F B) as (F1 & z & V & K).
  { intros s q r d H. destruct (2 * r ?= d)%Z; [destruct (Z.even q)|..]; lia. }
  split; auto. exists z. split; auto. destruct K as [(-> & ->)|(s & q & r & d & H & Q & -> & ->)]; [lra|].
  destruct (frac_bounds r d H) as (F01 & _).
  assert (M : (q <= match (2 * r) ?= d with Lt => q | Gt => q + 1 | Eq => if Z.even q then q else q + 1 end <= q + 1)%Z)
    by (destruct (2 * r ?= d)%Z; [destruct (Z.even q)|..]; lia).
  set (w := match (2 * r) ?= d with Lt => q | Gt => q + 1 | Eq => if Z.even q then q else q + 1 end%Z) in *. clearbody w.
  destruct M as (M1 & M2). apply IZR_le in M1, M2. rewrite plus_IZR in M2. destruct s; rewrite ?opp_IZR; lra.
Qed.

Lemma toZ_whole : forall x z, finite64 x -> val x = IZR z -> F_toZ x = z.
Proof.
  intros x z (V & F) E. destruct x as [s|s| |s m e]; try discriminate F.
  - cbn in E. symmetry in E. apply (eq_IZR z 0) in E. now subst.
  - cbn [F_toZ]. destruct (F_split m e) as ((q, r), d) eqn:S1. destruct (split_real _ _ _ _ _ S1) as (D & R1 & Q & W).
    assert (VX : val (S754_finite s m e) = (if s then - (IZR q + IZR r / IZR d) else IZR q + IZR r / IZR d)).
    { cbn [SF2R]. rewrite <- W. destruct s; cbn [cond_Zopp]; auto. rewrite <- F2R_Zopp. reflexivity. }
    destruct (frac_bounds r d R1) as (F01 & _). rewrite E in VX. destruct s.
    + assert (q <= - z < q + 1)%Z; [|lia]. split; [apply le_IZR|apply lt_IZR; rewrite plus_IZR]; rewrite opp_IZR; lra.
    + assert (q <= z < q + 1)%Z; [|lia]. split; [apply le_IZR|apply lt_IZR; rewrite plus_IZR]; lra.
Qed.

(** ** Rounding keeps order *)

Lemma rnd_mono : forall a b, a <= b -> rnd a <= rnd b.
Proof. intros a b H. apply round_le; auto; [apply fexp64_valid|apply valid_rnd_N]. Qed.
Lemma rnd_fin : forall x, finite64 x -> rnd (val x) = val x.
Proof. intros x F. apply round_generic; [apply valid_rnd_N|now apply finite_format]. Qed.
Lemma rnd_close : forall v, -2000000 <= v <= 2000000 -> v - / 1000000000 <= rnd v <= v + / 1000000000.
Proof.
  intros v H. assert (N : Rabs (rnd v - v) <= 3 / 10000000000) by (apply rnd_near; apply Rabs_le; lra).
  revert N. unfold Rabs. destruct (Rcase_abs _); intros; lra.
Qed.

Section Bins.
Variable lm : libm.
Local Instance AR : Ops := FOps lm.
Notation F := (@T AR).

(** round2 gives the double nearest to a whole number of hundredths. *)
Lemma round2_real : forall x : F, finite64 x -> Rabs (val x) <= 100 ->
  finite64 (round2 x) /\ exists z, (Z.abs z <= 10002)%Z /\ val (round2 x) = rnd (IZR z / 100).
Proof.
  intros x FX B. destruct (ofZ_real 100 ltac:(lia)) as (FH & VH).
  assert (BX : -100 <= val x <= 100) by (revert B; unfold Rabs; destruct (Rcase_abs _); intros; lra).
  destruct (mul_real (F_ofZ 100) x FH FX) as (F1 & V1).
  { rewrite VH. apply small_real. apply Rabs_le. lra. }
  rewrite VH in V1. assert (C1 := rnd_close (100 * val x) ltac:(lra)).
  destruct (rint_bound _ F1) as (F2 & z & V2 & B2). { rewrite V1. apply Rabs_le. lra. }
  rewrite V1 in B2. assert (ZB : (Z.abs z <= 10002)%Z).
  { assert (-10002 <= z <= 10002)%Z; [|lia]. split; apply le_IZR; lra. }
  destruct (div_real (F_rint (SFmul prec64 emax64 (F_ofZ 100) x)) (F_ofZ 100) F2 FH) as (F3 & V3).
  { rewrite VH. lra. }
  { rewrite VH, V2. apply small_real. assert (-10002 <= IZR z <= 10002) by (split; apply IZR_le; lia). apply Rabs_le. lra. }
  rewrite VH, V2 in V3. split; [exact F3|]. exists z. split; auto.
Qed.

(** ** Smallest and largest *)
Lemma minv_real : forall l : list F, l <> [] -> (forall x, In x l -> finite64 x) ->
  exists lo, minv l = Ok lo /\ In lo l /\ forall x, In x l -> val lo <= val x.
Proof.
  intros [|a l] N H; [contradiction|]. clear N. cbn [minv]. revert a H. induction l as [|b l IH]; intros a H.
  - exists a. repeat split; [now left|]. intros x [<-|[]]. lra.
  - cbn [fold_left]. assert (M : (min2 a b = a /\ val a <= val b) \/ (min2 a b = b /\ val b <= val a)).
    { unfold min2. change (ltb b a) with (SFltb b a). rewrite ltb_real by (apply H; simpl; auto). destruct (Rlt_bool_spec (val b) (val a)); [right|left]; split; auto; lra. }
    destruct (IH (min2 a b)) as (lo & E & I & L).
    { intros x [<-|X]; [|apply H; simpl; auto]. destruct M as [(-> & _)|(-> & _)]; apply H; simpl; auto. }
    exists lo. split; auto. assert (L0 := L _ (or_introl eq_refl)). split.
    + destruct I as [I|I]; [|simpl; auto]. destruct M as [(M & _)|(M & _)]; rewrite M in I; simpl; auto.
    + intros x [<-|[<-|X]]; [..|apply L; now right]; destruct M as [(M & Q)|(M & Q)]; rewrite M in L0; lra.
Qed.
Lemma maxv_real : forall l : list F, l <> [] -> (forall x, In x l -> finite64 x) -> exists hi, maxv l = Ok hi /\ In hi l.
Proof.
  intros [|a l] N H; [contradiction|]. clear N. cbn [maxv]. revert a H. induction l as [|b l IH]; intros a H.
  - exists a. split; [reflexivity|now left].
  - cbn [fold_left]. assert (M : max2 a b = a \/ max2 a b = b) by (unfold max2; destruct (ltb a b); auto).
    destruct (IH (max2 a b)) as (hi & E & I).
    { intros x [<-|X]; [|apply H; simpl; auto]. destruct M as [->| ->]; apply H; simpl; auto. }
    exists hi. split; auto. destruct I as [I|I]; [|simpl; auto]. destruct M as [M|M]; rewrite M in I; simpl; auto.
Qed.

(** ** The edges *)
Lemma edges_real : forall (start step : F) n, finite64 start -> finite64 step -> Rabs (val start) <= 200 ->
  / 1000 <= val step <= 100 -> INR n * val step <= 100000 ->
  (forall i, (i <= n)%nat -> finite64 (arange_at start step i)) /\
  (forall i j, (i <= j)%nat -> (j <= n)%nat -> val (arange_at start step i) <= val (arange_at start step j)).
Proof.
  intros start step n FS FT BS BT BN.
  assert (BS' : -200 <= val start <= 200) by (revert BS; unfold Rabs; destruct (Rcase_abs _); intros; lra).
  destruct (add_real start step FS FT) as (F1 & V1). { apply small_real. apply Rabs_le. lra. }
  set (s1 := SFadd prec64 emax64 start step) in *. assert (C1 := rnd_close (val start + val step) ltac:(lra)). rewrite <- V1 in C1.
  destruct (sub_real s1 start F1 FS) as (F2 & V2). { apply small_real. apply Rabs_le. lra. }
  set (delta := SFsub prec64 emax64 s1 start) in *. assert (C2 := rnd_close (val s1 - val start) ltac:(lra)). rewrite <- V2 in C2.
  assert (NB : forall i, (i <= n)%nat -> 0 <= INR i /\ INR i * val delta <= 200000 /\ (Z.abs (Z.of_nat i) <= 2 ^ 53)%Z).
  { intros i L. assert (I0 : 0 <= INR i) by apply pos_INR. assert (I1 : INR i <= INR n) by now apply le_INR.
    assert (IB : INR i * val step <= 100000) by nra. split; auto. split; [nra|].
    assert (INR i <= 100000000) by nra. rewrite INR_IZR_INZ in *. assert (Z.of_nat i <= 100000000)%Z by (apply le_IZR; lra). lia. }
  assert (EDGE : forall i, (i <= n)%nat ->
     let e := SFadd prec64 emax64 start (SFmul prec64 emax64 (F_ofZ (Z.of_nat i)) delta) in
     finite64 e /\ val e = rnd (val start + rnd (INR i * val delta))).
  { intros i L. destruct (NB i L) as (I0 & I1 & I2). destruct (ofZ_real (Z.of_nat i) I2) as (FI & VI). rewrite <- INR_IZR_INZ in VI.
    assert (I3 : 0 <= INR i * val delta) by (apply Rmult_le_pos; lra).
    destruct (mul_real (F_ofZ (Z.of_nat i)) delta FI F2) as (F3 & V3). { rewrite VI. apply small_real. apply Rabs_le. lra. }
    rewrite VI in V3. assert (C3 := rnd_close (INR i * val delta) ltac:(lra)). rewrite <- V3 in C3.
    destruct (add_real start _ FS F3) as (F4 & V4). { apply small_real. apply Rabs_le. lra. }
    rewrite V3 in V4. split; auto. }
  split.
  - intros i L. destruct i as [|[|i]]; [exact FS|exact F1|]. exact (proj1 (EDGE (S (S i)) L)).
  - (* successive edges *)
    assert (ST : forall i, (S i <= n)%nat -> val (arange_at start step i) <= val (arange_at start step (S i))).
    { intros i L. destruct i as [|[|i]].
      - change (val start <= val s1). rewrite V1. rewrite <- (rnd_fin start FS) at 1. apply rnd_mono. lra.
      - destruct (EDGE 2%nat L) as (_ & E2). change (val s1 <= val (SFadd prec64 emax64 start (SFmul prec64 emax64 (F_ofZ (Z.of_nat 2)) delta))).
        rewrite E2. rewrite <- (rnd_fin s1 F1) at 1. apply rnd_mono. change (INR 2) with (1 + 1). 
        assert (C4 := rnd_close ((1 + 1) * val delta) ltac:(lra)). lra.
      - destruct (EDGE (S (S i)) ltac:(lia)) as (_ & E2). destruct (EDGE (S (S (S i))) L) as (_ & E3).
        change (val (SFadd prec64 emax64 start (SFmul prec64 emax64 (F_ofZ (Z.of_nat (S (S i)))) delta)) <=
                val (SFadd prec64 emax64 start (SFmul prec64 emax64 (F_ofZ (Z.of_nat (S (S (S i))))) delta))).
        rewrite E2, E3. apply rnd_mono. apply Rplus_le_compat_l. apply rnd_mono. apply Rmult_le_compat_r; [lra|]. apply le_INR. lia. }
    intros i j L. induction L as [|j L IH]; intros N; [lra|]. apply Rle_trans with (val (arange_at start step j)); [apply IH; lia|]. apply ST. lia.
Qed.

(** ** Counting *)
Lemma sum_plus : forall (f g : nat -> nat) l, list_sum (map (fun j => f j + g j)%nat l) = (list_sum (map f l) + list_sum (map g l))%nat.
Proof. induction l as [|j l IH]; [reflexivity|]. cbn [map]. change (list_sum (?x :: ?l)) with (x + list_sum l)%nat. cbn [list_sum fold_right]. unfold list_sum in *. lia. Qed.

Lemma one_bin : forall (P : nat -> bool) k, P 0%nat = true -> (forall j, (j < k)%nat -> P (S j) = true -> P j = true) ->
  list_sum (map (fun j => if P j && negb (P (S j)) then 1 else 0)%nat (seq 0 k)) = if P k then 0%nat else 1%nat.
Proof.
  intros P k P0. induction k as [|k IH]; intros A; [cbn; now rewrite P0|].
  rewrite seq_S, map_app, list_sum_app, IH by (intros j L; apply A; lia). cbn [map list_sum fold_right Nat.add].
  specialize (A k ltac:(lia)). destruct (P (S k)); [rewrite A by auto; reflexivity|]. destruct (P k); reflexivity.
Qed.

Lemma mask_length : forall A B (p : A -> bool) (l : list A) (m : list B), List.length m = List.length l ->
  List.length (mask_get (map p l) m) = List.length (filter p l).
Proof.
  induction l as [|a l IH]; intros [|b m] E; try discriminate E; [reflexivity|]. injection E as E. cbn [map mask_get filter].
  destruct (p a); cbn [List.length]; now rewrite IH.
Qed.
Lemma mask_in : forall A (k : list bool) (l : list A) x, In x (mask_get k l) -> In x l.
Proof.
  induction k as [|b k IH]; intros [|a l] x H; try destruct H. cbn [mask_get] in H. destruct b; [destruct H as [<-|H]|]; simpl; eauto.
Qed.

Lemma counted_once : forall (year mw : list F) (endt tt : F) (edge : nat -> F) n, (0 < n)%nat ->
  (forall j, (j <= n)%nat -> finite64 (edge j)) ->
  (forall i j, (i <= j)%nat -> (j <= n)%nat -> val (edge i) <= val (edge j)) ->
  (forall m, In m mw -> finite64 m /\ val (edge 0%nat) <= val m) -> List.length mw = List.length year ->
  list_sum (map (stepp_count year mw endt (map edge (seq 0 (S n))) tt) (seq 0 n)) =
  List.length (filter (fun y => leb (sub endt tt) y) year).
Proof.
  intros year mw endt tt edge n N FE ME HM L. rewrite <- (mask_length _ _ _ _ _ L). unfold stepp_count.
  set (mtmp := mask_get (map (fun y => leb (sub endt tt) y) year) mw).
  assert (HT : forall m, In m mtmp -> finite64 m /\ val (edge 0%nat) <= val m) by (intros m I; apply HM; eapply mask_in; exact I).
  clearbody mtmp. clear HM L mw.
  assert (NTH : forall j, (j <= n)%nat -> nth j (map edge (seq 0 (S n))) (ofZ 0) = edge j).
  { intros j J. rewrite nth_indep with (d' := edge 0%nat) by (rewrite map_length, seq_length; lia). rewrite map_nth, seq_nth by lia. reflexivity. }
  set (g := fun (j : nat) (m : F) => if Nat.eqb j (n - 1) then leb (edge j) m else leb (edge j) m && ltb m (edge (S j))).
  rewrite (map_ext_in _ (fun j => count_true (map (g j) mtmp))).
  2:{ intros j J. apply in_seq in J. rewrite map_length, seq_length. replace (S n - 2)%nat with (n - 1)%nat by lia.
      rewrite !NTH by lia. unfold g. destruct (Nat.eqb j (n - 1)); f_equal; apply map_ext; intros m; auto. now rewrite Nat.add_1_r. }
  induction mtmp as [|m l IH].
  - cbn [map count_true List.length]. clear. induction (seq 0 n) as [|j k IH]; auto.
  - cbn [map count_true List.length]. rewrite (sum_plus (fun j => if g j m then 1 else 0)%nat (fun j => count_true (map (g j) l))).
    rewrite IH by (intros x I; apply HT; now right). f_equal.
    destruct (HT m (or_introl eq_refl)) as (FM & M0). clear IH HT.
    set (P := fun j => Rle_bool (val (edge j)) (val m)).
    assert (LE : forall j, (j <= n)%nat -> leb (edge j) m = P j). { intros j J. exact (leb_real (edge j) m (FE j J) FM). }
    assert (LT : forall j, (j <= n)%nat -> ltb m (edge j) = negb (P j)).
    { intros j J. unfold P. change (SFltb m (edge j) = negb (Rle_bool (val (edge j)) (val m))). rewrite (ltb_real m (edge j) FM (FE j J)).
      destruct (Rlt_bool_spec (val m) (val (edge j))), (Rle_bool_spec (val (edge j)) (val m)); auto; lra. }
    destruct n as [|n']; [lia|]. rewrite seq_S, map_app, list_sum_app.
    rewrite (map_ext_in _ (fun j => if P j && negb (P (S j)) then 1 else 0)%nat).
    2:{ intros j J. apply in_seq in J. unfold g. replace (Nat.eqb j (S n' - 1)) with false by (symmetry; apply Nat.eqb_neq; lia).
        rewrite LE, LT by lia. reflexivity. }
    rewrite one_bin.
    + cbn [map list_sum fold_right Nat.add]. unfold g. replace (Nat.eqb n' (S n' - 1)) with true by (symmetry; apply Nat.eqb_eq; lia).
      rewrite LE by lia. destruct (P n'); reflexivity.
    + unfold P. apply Rle_bool_true. exact M0.
    + intros j J Q. unfold P in *. destruct (Rle_bool_spec (val (edge (S j))) (val m)); [|discriminate]. apply Rle_bool_true.
      specialize (ME j (S j) ltac:(lia) ltac:(lia)). lra.
Qed.

Lemma tenths_below : forall x z, finite64 x -> (Z.abs z <= 10002)%Z -> val x = rnd (IZR z / 100) ->
  let low := SFdiv prec64 emax64 (F_floor (SFmul prec64 emax64 (F_ofZ 10) x)) (F_ofZ 10) in
  finite64 low /\ val low <= val x /\ Rabs (val low) <= 200.
Proof.
  intros x z FX ZB VX low. destruct (ofZ_real 10 ltac:(lia)) as (FH & VH).
  assert (ZR : -10002 <= IZR z <= 10002) by (split; apply IZR_le; lia).
  assert (C0 := rnd_close (IZR z / 100) ltac:(lra)). rewrite <- VX in C0.
  destruct (mul_real (F_ofZ 10) x FH FX) as (F1 & V1). { rewrite VH. apply small_real. apply Rabs_le. lra. }
  rewrite VH in V1. assert (C1 := rnd_close (10 * val x) ltac:(lra)). rewrite <- V1 in C1.
  destruct (floor_real _ F1) as (F2 & f & V2 & B2). { apply Rabs_le. lra. }
  destruct (div_real (F_floor (SFmul prec64 emax64 (F_ofZ 10) x)) (F_ofZ 10) F2 FH) as (F3 & V3).
  { rewrite VH. lra. }
  { rewrite VH, V2. apply small_real. apply Rabs_le. lra. }
  rewrite VH, V2 in V3. fold low in F3, V3. assert (C3 := rnd_close (IZR f / 10) ltac:(lra)).
  split; auto. rewrite V3. split; [|apply Rabs_le; lra]. rewrite VX. apply rnd_mono.
  assert (Q : (10 * f <= z)%Z). { assert (10 * f < z + 1)%Z; [|lia]. apply lt_IZR. rewrite mult_IZR, plus_IZR. lra. }
  apply IZR_le in Q. rewrite mult_IZR in Q. lra.
Qed.

Lemma tenths_above : forall x z, finite64 x -> (Z.abs z <= 10002)%Z -> val x = rnd (IZR z / 100) ->
  let high := SFdiv prec64 emax64 (F_ceil (SFmul prec64 emax64 (F_ofZ 10) x)) (F_ofZ 10) in
  finite64 high /\ Rabs (val high) <= 200.
Proof.
  intros x z FX ZB VX high. destruct (ofZ_real 10 ltac:(lia)) as (FH & VH).
  assert (ZR : -10002 <= IZR z <= 10002) by (split; apply IZR_le; lia).
  assert (C0 := rnd_close (IZR z / 100) ltac:(lra)). rewrite <- VX in C0.
  destruct (mul_real (F_ofZ 10) x FH FX) as (F1 & V1). { rewrite VH. apply small_real. apply Rabs_le. lra. }
  rewrite VH in V1. assert (C1 := rnd_close (10 * val x) ltac:(lra)). rewrite <- V1 in C1.
  destruct (ceil_bound _ F1) as (F2 & f & V2 & B2). { apply Rabs_le. lra. }
  destruct (div_real (F_ceil (SFmul prec64 emax64 (F_ofZ 10) x)) (F_ofZ 10) F2 FH) as (F3 & V3).
  { rewrite VH. lra. }
  { rewrite VH, V2. apply small_real. apply Rabs_le. lra. }
  rewrite VH, V2 in V3. fold high in F3, V3. assert (C3 := rnd_close (IZR f / 10) ltac:(lra)).
  split; auto. rewrite V3. apply Rabs_le. lra.
Qed.

(** The number of edges. *)
Lemma range_len : forall start stop step : F, finite64 start -> finite64 stop -> finite64 step ->
  Rabs (val start) <= 200 -> Rabs (val stop) <= 400 -> / 1000 <= val step <= 100 ->
  INR (arange_len start stop step) * val step <= 100000.
Proof.
  intros start stop step FS FP FT BS BP BT.
  assert (BS' : -200 <= val start <= 200) by (revert BS; unfold Rabs; destruct (Rcase_abs _); intros; lra).
  assert (BP' : -400 <= val stop <= 400) by (revert BP; unfold Rabs; destruct (Rcase_abs _); intros; lra).
  destruct (sub_real stop start FP FS) as (F1 & V1). { apply small_real. apply Rabs_le. lra. }
  assert (C1 := rnd_close (val stop - val start) ltac:(lra)). rewrite <- V1 in C1. set (w := SFsub prec64 emax64 stop start) in *.
  assert (Q : -1000000 <= val w / val step <= 1000000 /\ val w / val step * val step = val w).
  { assert (E : val w / val step * val step = val w) by (field; lra). set (q := val w / val step) in *. split; auto. split; nra. }
  destruct Q as (QB & QE).
  destruct (div_real w step F1 FT ltac:(lra)) as (F2 & V2). { apply small_real. apply Rabs_le. lra. }
  assert (C2 := rnd_close (val w / val step) ltac:(lra)). rewrite <- V2 in C2. set (d := SFdiv prec64 emax64 w step) in *.
  destruct (ceil_bound d F2) as (F3 & z & V3 & B3). { apply Rabs_le. lra. }
  assert (E : arange_len start stop step = Z.to_nat z). { unfold arange_len. f_equal. exact (toZ_whole _ _ F3 V3). }
  rewrite E. destruct (Z.le_gt_cases z 0) as [Z0|Z0]; [replace (Z.to_nat z) with 0%nat by lia; cbn [INR]; lra|].
  rewrite INR_IZR_INZ, Z2Nat.id by lia. set (q := val w / val step) in *. nra.
Qed.

Theorem C132_proof : forall (year mw : list F) (dm endt tt : F),
  finite64 dm -> / 1000 <= val dm <= 100 -> mw <> [] -> (forall m, In m mw -> finite64 m /\ Rabs (val m) <= 100) ->
  List.length mw = List.length year ->
  exists mbin, stepp_mbin (map round2 mw) dm = Ok mbin /\
    ((1 < List.length mbin)%nat ->
     list_sum (map (stepp_count year (map round2 mw) endt mbin tt) (seq 0 (List.length mbin - 1))) =
     List.length (filter (fun y => leb (sub endt tt) y) year)).
Proof.
  intros year mw dm endt tt FD BD N HM L.
  assert (HR : forall x, In x (map round2 mw) -> finite64 x /\ exists z, (Z.abs z <= 10002)%Z /\ val x = rnd (IZR z / 100)).
  { intros x I. apply in_map_iff in I. destruct I as (m & <- & I). apply round2_real; now apply HM. }
  assert (NR : map round2 mw <> []) by (destruct mw; [congruence|discriminate]).
  assert (LR : List.length (map round2 mw) = List.length year) by (now rewrite map_length).
  set (rm := map round2 mw) in *. clearbody rm. clear HM L N mw.
  destruct (minv_real rm NR ltac:(intros x I; apply (HR x I))) as (lo & E1 & I1 & M1).
  destruct (maxv_real rm NR ltac:(intros x I; apply (HR x I))) as (hi & E2 & I2).
  unfold stepp_mbin. rewrite E1, E2. cbn [bind].
  destruct (HR lo I1) as (FL & zl & BL & VL). destruct (HR hi I2) as (FH & zh & BH & VH).
  destruct (tenths_below lo zl FL BL VL) as (F1 & LL & B1). destruct (tenths_above hi zh FH BH VH) as (F2 & B2).
  change (div (floorv (mul (ofZ 10) lo)) (ofZ 10)) with (SFdiv prec64 emax64 (F_floor (SFmul prec64 emax64 (F_ofZ 10) lo)) (F_ofZ 10)).
  set (low := SFdiv prec64 emax64 (F_floor (SFmul prec64 emax64 (F_ofZ 10) lo)) (F_ofZ 10)) in *.
  set (high := SFdiv prec64 emax64 (F_ceil (SFmul prec64 emax64 (F_ofZ 10) hi)) (F_ofZ 10)) in *.
  assert (B2' : -200 <= val high <= 200) by (revert B2; unfold Rabs; destruct (Rcase_abs _); intros; lra).
  destruct (add_real high dm F2 FD) as (F3 & V3). { apply small_real. apply Rabs_le. lra. }
  assert (C3 := rnd_close (val high + val dm) ltac:(lra)).
  pose (stop := (SFadd prec64 emax64 high dm : F)).
  exists (arange (low : F) stop dm). split; [reflexivity|]. intros N1.
  assert (BN := range_len low stop dm F1 F3 FD B1 ltac:(unfold stop; rewrite V3; apply Rabs_le; lra) BD).
  unfold arange in *. rewrite map_length, seq_length in *. set (len := arange_len (low : F) stop dm) in *. clearbody len.
  destruct (edges_real low dm len F1 FD B1 BD BN) as (FE & ME).
  destruct len as [|n]; [lia|]. replace (S n - 1)%nat with n by lia.
  apply counted_once; [lia|intros j J; apply FE; lia|intros i j I J; apply ME; lia| |exact LR].
  intros m I. split; [apply (HR m I)|]. cbn [arange_at]. specialize (M1 m I). lra.
Qed.
End Bins.

Lemma between_real : forall lo hi x, finite64 lo -> finite64 hi -> double_between lo hi x -> finite64 x /\ val lo <= val x <= val hi.
Proof.
  intros lo hi x FL FH (V & L & H). assert (F : finite64 x).
  { split; [exact V|]. destruct x as [s|s| |s m e]; try reflexivity.
    - destruct FL as (_ & FL), FH as (_ & FH). exfalso. destruct lo as [sl|sl| |sl ml el], hi as [sh|sh| |sh mh eh]; try discriminate FL; try discriminate FH; destruct s; discriminate.
    - destruct FH as (_ & FH). destruct hi; discriminate. }
  split; auto. rewrite (leb_real lo x FL F) in L. rewrite (leb_real x hi F FH) in H.
  split; [destruct (Rle_bool_spec (val lo) (val x))|destruct (Rle_bool_spec (val x) (val hi))]; auto; discriminate.
Qed.

Theorem C132_between_proof : forall (lm : libm) (year mw : list (@T (FOps lm))) (dm endt tt : @T (FOps lm)),
  double_between (SFdiv prec64 emax64 (F_ofZ 1) (F_ofZ 500)) (F_ofZ 100) dm -> mw <> [] ->
  (forall m, In m mw -> double_between (F_ofZ (-100)) (F_ofZ 100) m) -> List.length mw = List.length year ->
  exists mbin, @stepp_mbin (FOps lm) (map (@round2 (FOps lm)) mw) dm = Ok mbin /\
    ((1 < List.length mbin)%nat ->
     list_sum (map (@stepp_count (FOps lm) year (map (@round2 (FOps lm)) mw) endt mbin tt) (seq 0 (List.length mbin - 1))) =
     List.length (filter (fun y => SFleb (SFsub prec64 emax64 endt tt) y) year)).
Proof.
  intros lm year mw dm endt tt D N H L. destruct (ofZ_real 100 ltac:(lia)) as (FH & VH). destruct (ofZ_real (-100) ltac:(lia)) as (FM & VM).
  destruct (ofZ_real 1 ltac:(lia)) as (F1 & V1). destruct (ofZ_real 500 ltac:(lia)) as (F5 & V5).
  destruct (div_real (F_ofZ 1) (F_ofZ 500) F1 F5) as (FT & VT). { rewrite V5. lra. } { rewrite V1, V5. apply small_real. apply Rabs_le. lra. }
  rewrite V1, V5 in VT. assert (C := rnd_close (1 / 500) ltac:(lra)).
  destruct (between_real _ _ _ FT FH D) as (FD & BD). rewrite VT, VH in BD.
  apply C132_proof; auto; [lra|]. intros m I. destruct (between_real _ _ _ FM FH (H m I)) as (A & B). rewrite VM, VH in B. split; auto. apply Rabs_le. lra.
Qed.
