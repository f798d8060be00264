(** Proofs of C89-C92: what the a-values of recurrence.py mean. *)
From Coq Require Import String ZArith Arith Bool List Lia Reals Lra.
From Verif Require Import Base Ops BaseFacts RFacts SteppSpec Completeness Recurrence RecurrenceSpec
  SteppProofs RecurrenceProofs WeichertProofs.
Import ListNotations.
Local Open Scope R_scope.

(** * Weichert: dependence on the reference magnitude *)

Lemma wsums_total : forall (tper fmag nobs : list R) beta dl d2 ratio nk,
  @weichert_sums ROps tper fmag nobs beta = (dl, d2, ratio, nk) -> nk = Rsum nobs.
Proof. intros until nk. unfold weichert_sums. cbv zeta. intros E. injection E as _ _ _ <-. apply sumv_R. Qed.

Lemma wloop_ref : forall fuel (tper fmag nobs : list R) m0 r1 r2 beta itstab b sb a sa, r1 <> 0 -> r2 <> 0 ->
  @weichert_loop ROps fuel tper fmag nobs m0 r1 beta itstab = Ok (b, sb, a, sa) ->
  sa = a / sqrt (Rsum nobs) /\
  exists sa2, @weichert_loop ROps fuel tper fmag nobs m0 r2 beta itstab
  = Ok (b, sb, a * exp (- (b * ln 10) * (r2 - r1)), sa2).
Proof.
  induction fuel as [|fuel IH]; intros tper fmag nobs m0 r1 r2 beta itstab b sb a sa H1 H2 H; [discriminate|].
  cbn [weichert_loop] in H |- *.
  destruct (@weichert_sums ROps tper fmag nobs beta) as [[[dl d2] ratio] nk] eqn:E.
  apply wsums_total in E. cbv zeta in H |- *. rops.
  destruct (Rleb _ itstab).
  - replace (Reqb r1 0) with false in H by (symmetry; apply Reqb_false; auto).
    replace (Reqb r2 0) with false by (symmetry; apply Reqb_false; auto).
    injection H as <- <- <- <-. subst nk. split; [reflexivity|]. eexists. f_equal. f_equal. f_equal.
    assert (P := ln10_pos).
    set (be := beta - dl / d2). rewrite (Rmult_assoc (Rsum nobs * ratio) (exp _) (exp _)), <- exp_plus. f_equal. f_equal. field. lra.
  - apply (IH tper fmag nobs m0 r1 r2 _ itstab b sb a sa H1 H2 H).
Qed.

Lemma wloop_zero : forall fuel (tper fmag nobs : list R) m0 beta itstab b sb a sa,
  @weichert_loop ROps fuel tper fmag nobs m0 0 beta itstab = Ok (b, sb, a, sa) -> m0 <> 0 ->
  exists sa2, @weichert_loop ROps fuel tper fmag nobs m0 m0 beta itstab = Ok (b, sb, a, sa2).
Proof.
  induction fuel as [|fuel IH]; intros tper fmag nobs m0 beta itstab b sb a sa H H0; [discriminate|].
  cbn [weichert_loop] in H |- *.
  destruct (@weichert_sums ROps tper fmag nobs beta) as [[[dl d2] ratio] nk] eqn:E.
  cbv zeta in H |- *. rops.
  destruct (Rleb _ itstab).
  - replace (Reqb 0 0) with true in H by (symmetry; apply Reqb_true; auto).
    replace (Reqb m0 0) with false by (symmetry; apply Reqb_false; auto).
    injection H as <- <- <- <-. eexists. f_equal. f_equal. f_equal.
    rewrite (Rminus_diag_eq m0 m0), Rmult_0_r, exp_0, Rmult_1_r by auto. reflexivity.
  - apply (IH tper fmag nobs m0 _ itstab b sb a sa H H0).
Qed.

Lemma C89_partial_proof : forall fuel (tper fmag nobs : list R) f0 f1 rest r1 r2 beta itstab b sb a sa,
  fmag = f0 :: f1 :: rest ->
  @weichert ROps fuel tper fmag nobs r1 beta itstab = Ok (b, sb, a, sa) -> r2 <> 0 ->
  let edge := f0 - (f1 - f0) / 2 in
  (r1 <> 0 -> sa = a / sqrt (Rsum nobs) /\
    exists sa2, @weichert ROps fuel tper fmag nobs r2 beta itstab
      = Ok (b, sb, a * exp (- (b * ln 10) * (r2 - r1)), sa2)) /\
  (r1 = 0 -> edge <> 0 -> exists sa2, @weichert ROps fuel tper fmag nobs r2 beta itstab
      = Ok (b, sb, a * exp (- (b * ln 10) * (r2 - edge)), sa2)).
Proof.
  intros fuel tper fmag nobs f0 f1 rest r1 r2 beta itstab b sb a sa -> H H2 edge. unfold weichert in *. cbv zeta in *.
  change (@sub ROps f0 (@div ROps (@sub ROps f1 f0) (@ofZ ROps 2))) with edge in *.
  split.
  - intros H1. eapply wloop_ref; eauto.
  - intros -> He. destruct (wloop_zero _ _ _ _ _ _ _ _ _ _ _ H He) as [s2 E2].
    destruct (wloop_ref _ _ _ _ _ edge r2 _ _ _ _ _ _ He H2 E2) as [_ G]. exact G.
Qed.

(** Two bins whose expected numbers are equal at beta = 3/2. *)
Definition w89_fmag : list R := [4; 5].
Definition w89_tper : list R := [exp 6; exp (15 / 2)].
Definition w89_nobs : list R := [1; 1].

Lemma w89_eval : forall r, exists b sb a, 0 < a /\
  @weichert ROps 1 w89_tper w89_fmag w89_nobs r (3 / 2) (1 / 100000)
  = Ok (b, sb, if Req_EM_T r 0 then a else a * exp (- (3 / 2) * (r - 7 / 2)),
        (if Req_EM_T r 0 then a * exp (- (3 / 2) * (7 / 2)) else a * exp (- (3 / 2) * (r - 7 / 2))) / sqrt 2).
Proof.
  intros r. unfold w89_tper, w89_fmag, w89_nobs. cbn [weichert weichert_loop].
  unfold weichert_sums. cbn [map map2 sumv fold_left]. rops.
  assert (E1 : exp 6 * exp (- (3 / 2) * 4) = 1).
  { rewrite <- exp_plus. replace (6 + - (3 / 2) * 4) with 0 by lra. apply exp_0. }
  assert (E2 : exp (15 / 2) * exp (- (3 / 2) * 5) = 1).
  { rewrite <- exp_plus. replace (15 / 2 + - (3 / 2) * 5) with 0 by lra. apply exp_0. }
  rewrite E1, E2. unfold sq. rops.
  replace ((0 + 1 * 4 + 1 * 5) / (0 + 1 + 1) * (0 + 1 + 1) - (0 + 1 * 4 + 1 * 5)) with 0 by field.
  set (d2 := (0 + 1 + 1) * _).
  replace (3 / 2 - 0 / d2) with (3 / 2) by (unfold Rdiv; lra).
  rewrite (Rminus_diag_eq (3 / 2) (3 / 2)), Rabs_R0 by auto.
  replace (Rleb 0 (1 / 100000)) with true by (symmetry; apply Rleb_true; lra).
  set (a := (0 + 1 + 1) * ((0 + exp (- (3 / 2) * 4) + exp (- (3 / 2) * 5)) / (0 + 1 + 1))).
  assert (0 < a). { unfold a. pose proof (exp_pos (- (3 / 2) * 4)). pose proof (exp_pos (- (3 / 2) * 5)). lra. }
  eexists _, _, a. split; [auto|].
  replace (4 - (5 - 4) / 2) with (7 / 2) by lra. replace (0 + 1 + 1) with 2 by lra.
  destruct (Req_EM_T r 0) as [->|Hr].
  - replace (Reqb 0 0) with true by (symmetry; apply Reqb_true; auto). reflexivity.
  - replace (Reqb r 0) with false by (symmetry; apply Reqb_false; auto). reflexivity.
Qed.

Lemma C89_refuted_proof : exists (tper fmag nobs : list R) b sb a0 s0 a1 s1,
  (forall t, In t tper -> 0 < t) /\ (forall n, In n nobs -> 0 < n) /\
  @weichert ROps 1 tper fmag nobs 0 (15 / 10) (1 / 100000) = Ok (b, sb, a0, s0) /\
  @weichert ROps 1 tper fmag nobs 1 (15 / 10) (1 / 100000) = Ok (b, sb, a1, s1) /\
  0 < b /\ a0 < a1 /\ s0 <> a0 / sqrt (Rsum nobs).
Proof.
  destruct (w89_eval 0) as (b0 & sb0 & a & Ha & E0).
  destruct (Req_EM_T 0 0) as [_|N]; [|elim N; auto].
  exists w89_tper, w89_fmag, w89_nobs, b0, sb0, a, (a * exp (- (3 / 2) * (7 / 2)) / sqrt 2),
    (a * exp (- (b0 * ln 10) * (1 - 7 / 2))).
  destruct (C89_partial_proof 1 w89_tper w89_fmag w89_nobs 4 5 [] 0 1 (3 / 2) (1 / 100000) b0 sb0 a
     (a * exp (- (3 / 2) * (7 / 2)) / sqrt 2) eq_refl E0 ltac:(lra)) as [_ G].
  destruct (G eq_refl ltac:(lra)) as [s1 E1]. replace (4 - (5 - 4) / 2) with (7 / 2) in E1 by lra.
  exists s1. replace (15 / 10) with (3 / 2) by lra.
  assert (Hb : b0 = (3 / 2) / ln 10).
  { destruct (w89_eval 1) as (b1 & sb1 & a1 & Ha1 & F1). clear - E0.
    revert E0. unfold w89_tper, w89_fmag, w89_nobs. cbn [weichert weichert_loop].
    unfold weichert_sums. cbn [map map2 sumv fold_left]. rops.
    assert (E1 : exp 6 * exp (- (3 / 2) * 4) = 1).
    { rewrite <- exp_plus. replace (6 + - (3 / 2) * 4) with 0 by lra. apply exp_0. }
    assert (E2 : exp (15 / 2) * exp (- (3 / 2) * 5) = 1).
    { rewrite <- exp_plus. replace (15 / 2 + - (3 / 2) * 5) with 0 by lra. apply exp_0. }
    rewrite E1, E2. unfold sq. rops.
    replace ((0 + 1 * 4 + 1 * 5) / (0 + 1 + 1) * (0 + 1 + 1) - (0 + 1 * 4 + 1 * 5)) with 0 by field.
    set (d2 := (0 + 1 + 1) * _).
    replace (3 / 2 - 0 / d2) with (3 / 2) by (unfold Rdiv; lra).
    rewrite (Rminus_diag_eq (3 / 2) (3 / 2)), Rabs_R0 by auto.
    replace (Rleb 0 (1 / 100000)) with true by (symmetry; apply Rleb_true; lra).
    replace (Reqb 0 0) with true by (symmetry; apply Reqb_true; auto).
    intros H. injection H as H _ _ _. symmetry. exact H. }
  assert (L := ln10_pos).
  split. { intros t [<-|[<-|[]]]; apply exp_pos. }
  split. { intros n [<-|[<-|[]]]; lra. }
  split; [exact E0|]. split; [exact E1|].
  split. { rewrite Hb. apply Rdiv_lt_0_compat; lra. }
  split.
  - rewrite <- (Rmult_1_r a) at 1. apply Rmult_lt_compat_l; auto. replace 1 with (exp 0) at 1 by apply exp_0. apply exp_increasing.
    rewrite Hb. replace (3 / 2 / ln 10 * ln 10) with (3 / 2) by (field; lra). lra.
  - replace (Rsum w89_nobs) with 2 by (simpl; lra). assert (0 < sqrt 2) by (apply sqrt_lt_R0; lra).
    intros E. apply Rmult_eq_reg_r in E; [|apply Rinv_neq_0_compat; lra].
    assert (exp (- (3 / 2) * (7 / 2)) < 1). { rewrite <- exp_0. apply exp_increasing. lra. }
    assert (a * exp (- (3 / 2) * (7 / 2)) < a * 1) by (apply Rmult_lt_compat_l; auto). lra.
Qed.

(** * One completeness period *)

Lemma one_period : forall (year mag : list R) cy m_c dmag ref_mag b sb a sa,
  length year = length mag ->
  @b_maxlike_time ROps year mag [cy] [m_c] dmag ref_mag = Ok (b, sb, a, sa) ->
  exists n, period_estimate year mag [cy] [m_c] dmag ref_mag cy n b sb a sa.
Proof.
  intros year mag cy m_c dmag ref_mag b sb a sa HL H.
  assert (BY : by_year [(cy, 1%nat)] [cy]).
  { split; [reflexivity|]. split. { constructor; [intros []|constructor]. }
    split. { intros g [<-|[]]; simpl; lia. } intros g g' [<-|[]] [<-|[]] _; auto. }
  destruct (C37_proof year mag [cy] [m_c] dmag ref_mag [(cy, 1%nat)] b sb a sa HL eq_refl BY H)
    as (ps & F & M). cbv zeta in M. destruct M as (Eb & Es & Ea & Esa & _).
  cbn [map fst] in F. inversion F as [|x p l l' HP HF]; subst. inversion HF; subst.
  exists (pd_n p). revert HP. cbn [map list_sum fold_right Rsum].
  intros HP. assert (N : INR (pd_n p) <> 0).
  { destruct HP as (mc & tab & fi & la & _ & _ & Hp & _). apply not_0_INR. lia. }
  rewrite Nat.add_0_r, !Rplus_0_r. unfold Rdiv. rewrite !Rinv_r, !Rmult_1_l by auto. exact HP.
Qed.

Lemma one_row_min : forall cy (m_c x : R), is_min x (map snd (filter (fun r => Reqb (fst r) cy) (combine [cy] [m_c]))) -> x = m_c.
Proof.
  intros cy m_c x [Hin _]. cbn [combine filter fst] in Hin.
  replace (Reqb cy cy) with true in Hin by (symmetry; apply Reqb_true; auto). cbn in Hin. destruct Hin as [H|[]]; auto.
Qed.

(** ** C90 *)

Lemma period_bsb : forall year mag (ctime cmag : list R) dmag r1 r2 cy n1 n2 b1 s1 a1 q1 b2 s2 a2 q2,
  ctime = [cy] -> length cmag = 1%nat ->
  period_estimate year mag ctime cmag dmag r1 cy n1 b1 s1 a1 q1 ->
  period_estimate year mag ctime cmag dmag r2 cy n2 b2 s2 a2 q2 -> b1 = b2 /\ s1 = s2.
Proof.
  intros year mag ctime cmag dmag r1 r2 cy n1 n2 b1 s1 a1 q1 b2 s2 a2 q2 -> HL
    (m1 & t1 & f1 & l1 & M1 & H1) (m2 & t2 & f2 & l2 & M2 & H2).
  destruct cmag as [|mc [|]]; try discriminate. apply one_row_min in M1. apply one_row_min in M2. subst m1 m2.
  cbv zeta in H1, H2. destruct H1 as (_ & _ & _ & _ & T1 & B1 & _), H2 as (_ & _ & _ & _ & T2 & B2 & _).
  rewrite T1 in T2. injection T2 as <-. rewrite B1 in B2. injection B2. auto.
Qed.

Lemma C90_partial_proof : forall (year mag : list R) cy m_c dmag ref_mag b sb a sa, length year = length mag ->
  @b_maxlike_time ROps year mag [cy] [m_c] dmag ref_mag = Ok (b, sb, a, sa) ->
  sa = Rpower 10 (Rabs ((b + sb) * ref_mag - b * m_c)) /\
  (ref_mag = m_c -> sa = Rpower 10 (Rabs (sb * m_c))).
Proof.
  intros year mag cy m_c dmag ref_mag b sb a sa HL H. destruct (one_period _ _ _ _ _ _ _ _ _ _ HL H) as [n HP].
  destruct HP as (mc & tab & fi & la & M & HP). apply one_row_min in M. subst mc. cbv zeta in HP.
  destruct HP as (_ & _ & _ & _ & _ & _ & _ & E). split; auto. intros ->. rewrite E. f_equal. f_equal. ring.
Qed.

Definition w90_year : list R := [1990; 1995; 1999].
Definition w90_mag : list R := [5; 5; 6].

Lemma w90_ok : forall r, exists res, @b_maxlike_time ROps w90_year w90_mag [1980] [4] (1/10) r = Ok res.
Proof.
  intros r. apply (C37_succeeds_proof _ _ _ _ _ _ [(1980, 1%nat)]); auto; try discriminate; try lra.
  - split; [reflexivity|]. split. { constructor; [intros []|constructor]. }
    split. { intros g [<-|[]]; simpl; lia. } intros g g' [<-|[]] [<-|[]] _; auto.
  - intros cy [<-|[]]. exists 4, 1990, 5. simpl. repeat split; auto; lra.
Qed.

(** ** The bins used for the b-value *)

Lemma rows_at_least : forall (mag year : list R) dmag m_c z tab, 0 < dmag -> mag <> [] -> year <> [] ->
  m_c = IZR z / 10 -> (forall m, In m mag -> m_c <= m) ->
  @recurrence_table ROps mag dmag year = Ok tab ->
  (forall row, In row tab -> m_c <= rc_mag row) /\ Rsum (map rc_n tab) = INR (length mag).
Proof.
  intros mag year dmag m_c z tab HD HM HY HZ HG HT.
  destruct (C35_proof mag year dmag HD HM HY) as (tab' & lo & first & last & E & TB & _ & _ & RR & (row0 & R0 & C0) & _).
  rewrite HT in E. injection E as <-.
  destruct (C35_cumulative_proof mag year dmag tab HD HT) as [CU _].
  split.
  - intros row Hin. destruct TB as (m & z' & [Hm _] & EL & L1 & L2).
    apply HG in Hm. assert (z <= z')%Z.
    { apply Znot_gt_le. intros G. assert (IZR (z' + 1) <= IZR z) by (apply IZR_le; lia). rewrite plus_IZR in H. lra. }
    apply IZR_le in H. apply In_nth_error in Hin. destruct Hin as [k Hk]. destruct (RR k row Hk) as [-> _].
    pose proof (pos_INR k). assert (0 <= (INR k + 1 / 2) * dmag) by (apply Rmult_le_pos; lra). lra.
  - rewrite (CU 0%nat row0 R0) in C0. exact C0.
Qed.

Lemma used_all : forall (tab : list (@rec_row ROps)) m_c, (forall row, In row tab -> m_c <= rc_mag row) ->
  wtotal (filter (fun p => Rleb m_c (fst p)) (combine (map rc_mag tab) (map rc_n tab))) = Rsum (map rc_n tab).
Proof.
  induction tab as [|r tab IH]; intros m_c H; [reflexivity|]. cbn [map combine filter fst].
  replace (Rleb m_c (rc_mag r)) with true by (symmetry; apply Rleb_true; apply H; simpl; auto).
  specialize (IH m_c (fun row I => H row (or_intror I))). unfold wtotal in *. cbn [map snd Rsum]. rewrite IH. reflexivity.
Qed.

(** ** C91 *)

Lemma C91_partial_proof : forall (mag year : list R) dmag m_c z, 0 < dmag -> mag <> [] -> year <> [] ->
  m_c = IZR z / 10 -> (forall m, In m mag -> m_c <= m) ->
  exists tab, @recurrence_table ROps mag dmag year = Ok tab /\
    wtotal (filter (fun p => Rleb m_c (fst p)) (combine (map rc_mag tab) (map rc_n tab))) = INR (length mag).
Proof.
  intros mag year dmag m_c z HD HM HY HZ HG.
  destruct (C35_proof mag year dmag HD HM HY) as (tab & lo & first & last & E & _).
  exists tab. split; auto. destruct (rows_at_least _ _ _ _ _ _ HD HM HY HZ HG E) as [A B].
  rewrite used_all by auto. exact B.
Qed.

Definition w91_mag : list R := [408/100; 408/100; 5].

Lemma C91_refuted_proof : exists (year mag : list R) cy m_c dmag ref_mag b sb a sa tab,
  length year = length mag /\ (forall y, In y year -> cy <= y) /\ (forall m, In m mag -> m_c <= m) /\
  @b_maxlike_time ROps year mag [cy] [m_c] dmag ref_mag = Ok (b, sb, a, sa) /\
  @recurrence_table ROps mag dmag year = Ok tab /\
  @b_max_likelihood ROps (map rc_mag tab) (map rc_n tab) dmag m_c = Ok (b, sb) /\
  wtotal (filter (fun p => Rleb m_c (fst p)) (combine (map rc_mag tab) (map rc_n tab))) < INR (length mag).
Proof.
  assert (HY : forall y, In y w90_year -> 1980 <= y) by (intros y [<-|[<-|[<-|[]]]]; lra).
  assert (HM : forall m, In m w91_mag -> 407/100 <= m) by (intros y [<-|[<-|[<-|[]]]]; lra).
  destruct (C37_succeeds_proof w90_year w91_mag [1980] [407/100] (1/10) 5 [(1980, 1%nat)]) as [[[[b sb] a] sa] E];
    auto; try discriminate; try lra.
  { split; [reflexivity|]. split. { constructor; [intros []|constructor]. }
    split. { intros g [<-|[]]; simpl; lia. } intros g g' [<-|[]] [<-|[]] _; auto. }
  { intros cy [<-|[]]. exists (407/100), 1990, (408/100). simpl. repeat split; auto; lra. }
  destruct (C35_proof w91_mag w90_year (1/10) ltac:(lra) ltac:(discriminate) ltac:(discriminate))
    as (tab & lo & first & last & ET & TB & _ & _ & RR & (row0 & R0 & C0) & B).
  exists w90_year, w91_mag, 1980, (407/100), (1/10), 5, b, sb, a, sa, tab.
  split; [reflexivity|]. split; [exact HY|]. split; [exact HM|]. split; [exact E|]. split; [exact ET|].
  split.
  - destruct (one_period w90_year w91_mag _ _ _ _ _ _ _ _ eq_refl E) as [n (mc & tab' & fi & la & M & HP)].
    apply one_row_min in M. subst mc. cbv zeta in HP. destruct HP as (_ & _ & _ & _ & T & BB & _).
    replace (filter (fun e : R * R => (Rleb 1980 (fst e) && Rleb (407 / 100 - 1 / 100000) (snd e))%bool)
              (combine w90_year w91_mag)) with (combine w90_year w91_mag) in T.
    + cbn [combine w90_year w91_mag map fst snd] in T. unfold w91_mag, w90_year in ET. rewrite ET in T.
      injection T as <-. exact BB.
    + unfold w90_year, w91_mag. cbn [combine filter fst snd]. rdec. reflexivity.
  - assert (LO : lo = 4).
    { destruct TB as (m & z & [Hm Hmin] & -> & L1 & L2). assert (m = 408/100).
      { specialize (Hmin (408/100) (or_introl eq_refl)). specialize (HM m Hm). destruct Hm as [<-|[<-|[<-|[]]]]; lra. }
      subst m. assert (z = 40)%Z.
      { assert (IZR z < 41 /\ 39 < IZR z) as [A1 A2] by lra. apply lt_IZR in A1. apply lt_IZR in A2. lia. }
      subst z. lra. }
    subst lo. destruct (C35_cumulative_proof w91_mag w90_year (1/10) tab ltac:(lra) ET) as [CU _].
    assert (K1 : (1 < length tab)%nat).
    { destruct (B 5 ltac:(simpl; auto)) as (k & Hk & Hb & _). destruct k; [|lia]. exfalso.
      unfold bin_of in Hb. apply andb_true_iff in Hb. destruct Hb as [_ Hb]. apply Rltb_true in Hb. simpl in Hb. lra. }
    destruct tab as [|r0 [|r1 tab]]; try (simpl in K1; lia).
    destruct (RR 0%nat r0 eq_refl) as [M0 _].
    destruct (RR 1%nat r1 eq_refl) as (M1 & _ & C1 & _).
    assert (W : wtotal (filter (fun p => Rleb (407/100) (fst p)) (combine (map rc_mag (r1 :: tab)) (map rc_n (r1 :: tab))))
                = Rsum (map rc_n (r1 :: tab))).
    { apply used_all. intros row I. apply In_nth_error in I. destruct I as [k Hk].
      destruct (RR (S k) row Hk) as [-> _]. rewrite S_INR. pose proof (pos_INR k). lra. }
    change (combine (map rc_mag (r0 :: r1 :: tab)) (map rc_n (r0 :: r1 :: tab)))
      with ((rc_mag r0, rc_n r0) :: combine (map rc_mag (r1 :: tab)) (map rc_n (r1 :: tab))).
    cbn [filter fst]. replace (Rleb (407/100) (rc_mag r0)) with false.
    2: { symmetry. apply Rleb_false. rewrite M0. simpl. lra. }
    eapply Rle_lt_trans; [right; exact W|].
    change (map rc_n (r1 :: tab)) with (skipn 1 (map rc_n (r0 :: r1 :: tab))).
    rewrite <- (CU 1%nat r1 eq_refl), C1. apply lt_INR. unfold w91_mag, count. cbn [filter length].
    replace (Rleb (4 + INR 1 * (1 / 10)) (408/100)) with false by (symmetry; apply Rleb_false; simpl; lra).
    replace (Rleb (4 + INR 1 * (1 / 10)) 5) with true by (symmetry; apply Rleb_true; simpl; lra). simpl. lia.
Qed.

(** ** C90, the witness *)

Lemma w90_b : forall r b sb a sa, @b_maxlike_time ROps w90_year w90_mag [1980] [4] (1/10) r = Ok (b, sb, a, sa) ->
  0 < b /\ 0 <= sb.
Proof.
  intros r b sb a sa H. destruct (one_period w90_year w90_mag _ _ _ _ _ _ _ _ eq_refl H) as [n (mc & tab & fi & la & M & HP)].
  apply one_row_min in M. subst mc. cbv zeta in HP. destruct HP as (_ & _ & _ & _ & T & BB & _).
  replace (filter (fun e : R * R => (Rleb 1980 (fst e) && Rleb (4 - 1 / 100000) (snd e))%bool)
              (combine w90_year w90_mag)) with (combine w90_year w90_mag) in T.
  2: { unfold w90_year, w90_mag. cbn [combine filter fst snd]. rdec. reflexivity. }
  destruct (rows_at_least (map snd (combine w90_year w90_mag)) (map fst (combine w90_year w90_mag)) (1/10) 4 40 tab ltac:(lra) ltac:(discriminate) ltac:(discriminate) ltac:(lra)
    ltac:(intros m [<-|[<-|[<-|[]]]]; simpl; lra) T) as [A B].
  destruct (C36_proof (map rc_mag tab) (map rc_n tab) (1/10) 4) as (mmin & b' & s' & E & _ & _ & [Hb _] & Hs & _).
  - rewrite !map_length. reflexivity.
  - destruct (C35_proof (map snd (combine w90_year w90_mag)) (map fst (combine w90_year w90_mag)) (1/10)
      ltac:(lra) ltac:(discriminate) ltac:(discriminate)) as (tab' & lo & first & last & ET & _ & _ & _ & RR & _).
    rewrite T in ET. injection ET as <-. intros n0 I. apply in_map_iff in I. destruct I as (row & <- & I).
    apply In_nth_error in I. destruct I as [k Hk]. destruct (RR k row Hk) as (_ & -> & _). apply pos_INR.
  - lra.
  - rewrite used_all by auto. rewrite B. apply lt_0_INR. simpl. lia.
  - rops. rewrite BB in E. injection E as <- <-. split; auto. rewrite Hs. apply Rmult_le_pos; [|apply sqrt_pos].
    pose proof (Rle_0_sqr b) as SQ. unfold Rsqr in SQ. lra.
Qed.

Lemma C90_refuted_proof : exists (year mag : list R) cy m_c dmag r1 r2 b sb a1 a2 s1 s2,
  length year = length mag /\
  @b_maxlike_time ROps year mag [cy] [m_c] dmag r1 = Ok (b, sb, a1, s1) /\
  @b_maxlike_time ROps year mag [cy] [m_c] dmag r2 = Ok (b, sb, a2, s2) /\ s1 < s2.
Proof.
  destruct (w90_ok 4) as [[[[b sb] a1] s1] E1]. destruct (w90_ok 8) as [[[[b' sb'] a2] s2] E2].
  destruct (one_period w90_year w90_mag _ _ _ _ _ _ _ _ eq_refl E1) as [n1 P1].
  destruct (one_period w90_year w90_mag _ _ _ _ _ _ _ _ eq_refl E2) as [n2 P2].
  destruct (period_bsb w90_year w90_mag [1980] [4] _ _ _ _ _ _ _ _ _ _ _ _ _ _ eq_refl eq_refl P1 P2) as [-> ->].
  exists w90_year, w90_mag, 1980, 4, (1/10), 4, 8, b', sb', a1, a2, s1, s2.
  split; [reflexivity|]. split; [exact E1|]. split; [exact E2|].
  destruct (w90_b _ _ _ _ _ E2) as [Hb Hs].
  destruct (C90_partial_proof w90_year w90_mag _ _ _ _ _ _ _ _ eq_refl E1) as [-> _].
  destruct (C90_partial_proof w90_year w90_mag _ _ _ _ _ _ _ _ eq_refl E2) as [-> _].
  apply Rpower_lt; [lra|]. rewrite !Rabs_right; lra.
Qed.

(** ** C92 *)

Lemma C92_partial_proof : forall (year mag : list R) cy m_c dmag ref_mag b sb a sa final, length year = length mag ->
  @b_maxlike_time ROps year mag [cy] [m_c] dmag ref_mag = Ok (b, sb, a, sa) -> is_max final year ->
  let ev := filter (fun e => Rleb cy (fst e) && Rleb (m_c - 1 / 100000) (snd e))%bool (combine year mag) in
  let rate years := INR (length ev) / years * Rpower 10 (b * (m_c - ref_mag)) in
  exists first last, is_min first (map fst ev) /\ is_max last (map fst ev) /\
    a = rate (last - first + 1) /\ rate (final - cy + 1) <= a /\
    (a = rate (final - cy + 1) <-> first = cy /\ last = final).
Proof.
  intros year mag cy m_c dmag ref_mag b sb a sa final HL H [_ HF] ev rate.
  destruct (one_period _ _ _ _ _ _ _ _ _ _ HL H) as [n (mc & tab & fi & la & M & HP)].
  apply one_row_min in M. subst mc. cbv zeta in HP. fold ev in HP.
  destruct HP as (-> & Hn & F & L & _ & _ & Ha & _).
  exists fi, la. split; [exact F|]. split; [exact L|]. split; [exact Ha|].
  assert (C1 : cy <= fi).
  { destruct F as [F _]. apply in_map_iff in F. destruct F as ((y & m) & <- & I). unfold ev in I.
    apply filter_In in I. destruct I as [_ I]. apply andb_true_iff in I. destruct I as [I _]. apply Rleb_true in I. exact I. }
  assert (C2 : la <= final).
  { destruct L as [L _]. apply in_map_iff in L. destruct L as ((y & m) & <- & I). unfold ev in I.
    apply filter_In in I. destruct I as [I _]. apply in_combine_l in I. apply HF. exact I. }
  assert (C3 : fi <= la). { destruct F as [_ F]. destruct L as [L _]. apply F. exact L. }
  set (p := Rpower 10 (b * (m_c - ref_mag))) in *. assert (P : 0 < p) by apply exp_pos.
  assert (N : 0 < INR (length ev)) by (apply lt_0_INR; exact Hn).
  assert (NP : 0 < INR (length ev) * p) by (apply Rmult_lt_0_compat; auto).
  assert (Q : forall d, rate d = INR (length ev) * p * / d) by (intros d; unfold rate; fold p; unfold Rdiv; ring).
  rewrite Ha. change (INR (length ev) / (la - fi + 1) * p) with (rate (la - fi + 1)). rewrite !Q.
  split; [|split].
  - apply Rmult_le_compat_l; [lra|]. apply Rinv_le_contravar; lra.
  - intros E. apply Rmult_eq_reg_l in E; [|lra].
    assert (la - fi + 1 = final - cy + 1) by (rewrite <- (Rinv_inv (la - fi + 1)), E, Rinv_inv; reflexivity).
    split; lra.
  - intros [-> ->]. reflexivity.
Qed.

Definition w92_year : list R := [1900; 1950; 1950; 2000].
Definition w92_mag : list R := [4; 6; 65/10; 4].

Lemma C92_refuted_proof : exists (year mag : list R) cy m_c dmag b sb a sa final,
  length year = length mag /\ is_max final year /\ is_min cy year /\
  @b_maxlike_time ROps year mag [cy] [m_c] dmag m_c = Ok (b, sb, a, sa) /\
  let n := length (filter (fun e => Rleb cy (fst e) && Rleb m_c (snd e))%bool (combine year mag)) in
  100 * (INR n / (final - cy + 1)) < a.
Proof.
  destruct (C37_succeeds_proof w92_year w92_mag [1900] [5] (1/10) 5 [(1900, 1%nat)]) as [[[[b sb] a] sa] E];
    auto; try discriminate; try lra.
  { split; [reflexivity|]. split. { constructor; [intros []|constructor]. }
    split. { intros g [<-|[]]; simpl; lia. } intros g g' [<-|[]] [<-|[]] _; auto. }
  { intros cy [<-|[]]. exists 5, 1950, 6. simpl. repeat split; auto; lra. }
  assert (MX : is_max 2000 w92_year). { split; [simpl; auto|]. intros y [<-|[<-|[<-|[<-|[]]]]]; lra. }
  exists w92_year, w92_mag, 1900, 5, (1/10), b, sb, a, sa, 2000.
  split; [reflexivity|]. split; [exact MX|].
  split. { split; [simpl; auto|]. intros y [<-|[<-|[<-|[<-|[]]]]]; lra. }
  split; [exact E|].
  destruct (C92_partial_proof w92_year w92_mag 1900 5 (1/10) 5 b sb a sa 2000 eq_refl E MX) as (fi & la & F & L & Ha & _).
  clear E MX.
  assert (EV : forall c, 4 < c <= 5 -> filter (fun e : R * R => (Rleb 1900 (fst e) && Rleb c (snd e))%bool) (combine w92_year w92_mag)
    = [(1950, 6); (1950, 65/10)]).
  { intros c Hc. unfold w92_year, w92_mag. cbn [combine filter fst snd]. rdec. reflexivity. }
  cbv zeta in *. rewrite (EV (5 - 1 / 100000)) in F, L, Ha by lra. rewrite (EV 5) by lra.
  cbn [map fst length] in *.
  destruct F as [F _]. destruct L as [L _].
  assert (fi = 1950) by (destruct F as [<-|[<-|[]]]; auto).
  assert (la = 1950) by (destruct L as [<-|[<-|[]]]; auto). subst fi la.
  rewrite Ha. replace (5 - 5) with 0 by lra. rewrite Rmult_0_r, Rpower_O by lra.
  replace (INR 2) with 2 by (simpl; lra). lra.
Qed.
