(** Stepp's analysis when every event is listed n times (C121). *)
From Coq Require Import ZArith Arith Bool List Permutation Lia Reals Lra.
From Verif Require Import Base Ops RFacts BaseFacts Completeness SteppSpec SteppProofs CopiesSpec CopiesProofs.
Import ListNotations.
Local Open Scope R_scope.

Lemma log10_mult : forall x y, 0 < x -> 0 < y -> Rlog10 (x * y) = Rlog10 x + Rlog10 y.
Proof. intros. unfold Rlog10. rewrite ln_mult by auto. assert (X := ln10_pos). field. lra. Qed.
Lemma log10_pow : forall k, Rlog10 (10 ^ k) = INR k.
Proof. intros. unfold Rlog10. rewrite ln_pow by lra. assert (X := ln10_pos). field. lra. Qed.
Lemma log10_inv : forall x, 0 < x -> Rlog10 (/ x) = - Rlog10 x.
Proof. intros. unfold Rlog10. rewrite ln_Rinv by auto. assert (X := ln10_pos). field. lra. Qed.
Lemma log10_sqrt : forall x, 0 < x -> Rlog10 (sqrt x) = Rlog10 x / 2.
Proof.
  intros. assert (S : 0 < sqrt x) by (apply sqrt_lt_R0; auto).
  rewrite <- (sqrt_sqrt x) at 2 by lra. rewrite log10_mult by auto. field.
Qed.
Lemma log10_le : forall x y, 0 < x -> x <= y -> Rlog10 x <= Rlog10 y.
Proof. intros x y H [L| ->]; [left; apply log10_lt; auto|right; auto]. Qed.
Lemma log10_0 : Rlog10 1 = 0.
Proof. unfold Rlog10. rewrite ln_1. assert (X := ln10_pos). field. lra. Qed.

(** The logarithm of the deviation of a rate. *)
Lemma sigma_none : forall t, 0 < t -> Rlog10 (rate_sigma 0 t) = -14.
Proof.
  intros t H. unfold rate_sigma. replace (INR 0 / t / t) with 0 by (simpl; field; lra). rewrite sqrt_0.
  rewrite Rmax_right by lra. replace (1 / 100000000000000) with (/ 10 ^ 14) by (simpl; field).
  rewrite log10_inv, log10_pow. simpl; lra. simpl; lra.
Qed.

Lemma sigma_some : forall c t, 0 < t -> t <= 10 ^ 12 -> (0 < c)%nat ->
  Rlog10 (rate_sigma c t) = Rlog10 (INR c) / 2 - Rlog10 t.
Proof.
  intros c t H U C. unfold rate_sigma.
  assert (C1 : 1 <= INR c) by (apply (le_INR 1); lia).
  assert (IT := Rinv_0_lt_compat t H).
  replace (INR c / t / t) with (INR c * (/ t * / t)) by (field; lra).
  rewrite sqrt_mult_alt by lra. rewrite (sqrt_square (/ t)) by lra.
  assert (S1 : 1 <= sqrt (INR c)). { rewrite <- sqrt_1. apply sqrt_le_1; lra. }
  assert (LB : 1 / 100000000000000 <= / t).
  { apply Rle_trans with (/ 10 ^ 12). simpl. lra. apply Rinv_le_contravar; auto. }
  rewrite Rmax_left by nra. rewrite log10_mult by (auto; lra). rewrite log10_sqrt, log10_inv by lra. lra.
Qed.

Section Slopes.
Variables (dt : R) (c : nat -> nat) (N nt n : nat).
Hypothesis DT : 0 < dt.
Hypothesis NP : (0 < n)%nat.
Let dur (j : nat) : R := INR (j + 1) * dt.
Hypothesis MONO : forall i j, (i <= j)%nat -> (j < nt)%nat -> (c i <= c j)%nat.
Hypothesis BOUND : forall j, (j < nt)%nat -> (c j <= N)%nat.
Hypothesis SIZE : forall j, (j < nt)%nat -> INR N * dur j <= 10 ^ 12.

Let l (j : nat) : R := Rlog10 (dur j).
Let h : R := Rlog10 (INR n) / 2.

Lemma dur_pos : forall j, 0 < dur j.
Proof. intros. apply (dur_lt dt j DT). Qed.

Lemma h_nonneg : 0 <= h.
Proof.
  unfold h. assert (P : 1 <= INR n) by (apply (le_INR 1); lia).
  assert (A := log10_le 1 (INR n) ltac:(lra) P). rewrite log10_0 in A. lra.
Qed.

(** Steps of the logarithm of the duration. *)
Lemma step_pos : forall i, 0 < l (i + 1) - l i.
Proof. intros. assert (D := dur_lt dt i DT). assert (L := log10_lt _ _ (proj1 D) (proj2 D)). unfold l, dur. lra. Qed.

Lemma step_small : forall i, l (i + 1) - l i <= 1 / 3.
Proof.
  intros i. unfold l. assert (P := dur_pos i). assert (P1 := dur_pos (i + 1)).
  assert (Q : dur (i + 1) <= 2 * dur i).
  { unfold dur. rewrite (INR_S1 (i + 1)). rewrite (INR_S1 i). assert (0 <= INR i) by apply pos_INR. nra. }
  assert (A := log10_le _ _ P1 Q). rewrite log10_mult in A by lra.
  assert (B : 3 * Rlog10 2 <= 1).
  { replace (3 * Rlog10 2) with (Rlog10 (2 * (2 * 2))) by (rewrite !log10_mult by lra; ring).
    replace 1 with (Rlog10 (10 ^ 1)) by (rewrite log10_pow; simpl; lra). apply log10_le; simpl; lra. }
  lra.
Qed.

Lemma step_ratio : forall i, l (i + 1) - l i <= 2 * (l (i + 2) - l (i + 1)).
Proof.
  intros i. unfold l. assert (P := dur_pos i). assert (P1 := dur_pos (i + 1)). assert (P2 := dur_pos (i + 2)).
  assert (Q : dur (i + 1) * (dur (i + 1) * dur (i + 1)) <= dur i * (dur (i + 2) * dur (i + 2))).
  { unfold dur. replace (i + 2 + 1)%nat with (i + 1 + 1 + 1)%nat by lia. rewrite (INR_S1 (i + 1 + 1)), (INR_S1 (i + 1)), (INR_S1 i).
    set (x := INR i). assert (X : 0 <= x) by apply pos_INR.
    replace ((x + 1 + 1) * dt * ((x + 1 + 1) * dt * ((x + 1 + 1) * dt))) with ((x + 2) * (x + 2) * (x + 2) * (dt * dt * dt)) by ring.
    replace ((x + 1) * dt * ((x + 1 + 1 + 1) * dt * ((x + 1 + 1 + 1) * dt))) with ((x + 1) * (x + 3) * (x + 3) * (dt * dt * dt)) by ring.
    assert (D3 : 0 < dt * dt * dt) by (repeat apply Rmult_lt_0_compat; auto).
    apply Rmult_le_compat_r; [lra|]. nra. }
  assert (P11 := Rmult_lt_0_compat _ _ P1 P1). assert (P22 := Rmult_lt_0_compat _ _ P2 P2).
  assert (A := log10_le _ _ (Rmult_lt_0_compat _ _ P1 P11) Q).
  rewrite (log10_mult _ _ P1 P11), (log10_mult _ _ P1 P1), (log10_mult _ _ P P22), (log10_mult _ _ P2 P2) in A. lra.
Qed.

Let cn (j : nat) : nat := (n * c j)%nat.

(** Where there are events, n copies add h. *)
Lemma sigma_n : forall j, (j < nt)%nat ->
  (c j = 0%nat /\ Rlog10 (rate_sigma (c j) (dur j)) = -14 /\ Rlog10 (rate_sigma (cn j) (dur j)) = -14) \/
  ((0 < c j)%nat /\ Rlog10 (rate_sigma (c j) (dur j)) = Rlog10 (INR (c j)) / 2 - l j /\
   Rlog10 (rate_sigma (cn j) (dur j)) = h + (Rlog10 (INR (c j)) / 2 - l j) /\
   0 <= Rlog10 (INR (c j)) /\ Rlog10 (INR (c j)) <= Rlog10 (INR N) /\ Rlog10 (INR N) + l j <= 12).
Proof.
  intros j J. unfold cn. destruct (Nat.eq_dec (c j) 0) as [Z|Z].
  - left. rewrite Z, Nat.mul_0_r. assert (S := sigma_none _ (dur_pos j)). auto.
  - right. assert (B := BOUND j J). assert (S := SIZE j J). assert (D := dur_pos j).
    assert (C1 : 1 <= INR (c j)) by (apply (le_INR 1); lia).
    assert (N1 : INR (c j) <= INR N) by (apply le_INR; auto).
    assert (U : dur j <= 10 ^ 12) by nra.
    assert (M1 : 1 <= INR n) by (apply (le_INR 1); lia).
    split; [lia|]. split; [apply sigma_some; auto; lia|]. split; [|split; [|split]].
    + rewrite sigma_some by (auto; nia). rewrite mult_INR, log10_mult by lra. unfold h, l. lra.
    + rewrite <- log10_0. apply log10_le; lra.
    + apply log10_le; lra.
    + unfold l. rewrite <- log10_mult by lra. replace 12 with (Rlog10 (10 ^ 12)) by (rewrite log10_pow; simpl; lra).
      apply log10_le; auto. apply Rmult_lt_0_compat; lra.
Qed.

Lemma big : forall (x d k : R), 0 < d -> d <= 1 / 3 -> 0 <= k -> k <= x -> 3 * k <= x / d.
Proof.
  intros x d k D U K X. apply (Rmult_le_reg_r d); auto. replace (x / d * d) with x by (field; lra). nra.
Qed.

Lemma slopes_same : forall ttol i, ttol <= 3 -> (i + 2 < nt)%nat ->
  (ttol < Rabs (log_slope cn dur (i + 1) - log_slope cn dur i) <->
   ttol < Rabs (log_slope c dur (i + 1) - log_slope c dur i)).
Proof.
  intros ttol i TT I. unfold log_slope. fold (l i) (l (i + 1)) (l (i + 1 + 1)).
  replace (i + 1 + 1)%nat with (i + 2)%nat by lia.
  assert (D0 := step_pos i). assert (D1 := step_pos (i + 1)). replace (i + 1 + 1)%nat with (i + 2)%nat in D1 by lia.
  assert (S0 := step_small i). assert (S1 := step_small (i + 1)). replace (i + 1 + 1)%nat with (i + 2)%nat in S1 by lia.
  assert (RT := step_ratio i). assert (H0 := h_nonneg).
  assert (M0 := MONO i (i + 1) ltac:(lia) ltac:(lia)). assert (M1 := MONO (i + 1) (i + 2) ltac:(lia) ltac:(lia)).
  set (d0 := l (i + 1) - l i) in *. set (d1 := l (i + 2) - l (i + 1)) in *.
  destruct (sigma_n i ltac:(lia)) as [(Z0 & -> & ->)|(Z0 & -> & -> & _)];
  destruct (sigma_n (i + 1) ltac:(lia)) as [(Z1 & -> & ->)|(Z1 & -> & -> & P1 & Q1 & R1)];
  destruct (sigma_n (i + 2) ltac:(lia)) as [(Z2 & -> & ->)|(Z2 & -> & -> & P2 & Q2 & R2)]; try lia.
  - reflexivity.
  - (* none, none, some *)
    set (x := Rlog10 (INR (c (i + 2)%nat)) / 2 - l (i + 2)) in *.
    assert (X : 2 <= x - -14) by (unfold x; lra).
    replace ((-14 - -14) / d0) with 0 by (field; lra). rewrite !Rminus_0_r.
    assert (B1 := big (x - -14) d1 2 ltac:(lra) ltac:(lra) ltac:(lra) X).
    assert (B2 := big (h + x - -14) d1 2 ltac:(lra) ltac:(lra) ltac:(lra) ltac:(lra)).
    rewrite !Rabs_right by lra. split; intros; lra.
  - (* none, some, some *)
    set (x := Rlog10 (INR (c (i + 1)%nat)) / 2) in *. set (y := Rlog10 (INR (c (i + 2)%nat)) / 2) in *.
    set (M := Rlog10 (INR N)) in *.
    assert (E1 : (y - l (i + 2) - (x - l (i + 1))) / d1 = (y - x) / d1 - 1) by (unfold d1; field; fold d1; lra).
    assert (E2 : (h + (y - l (i + 2)) - (h + (x - l (i + 1)))) / d1 = (y - x) / d1 - 1) by (unfold d1; field; fold d1; lra).
    rewrite E1, E2.
    assert (YX : (y - x) / d1 <= M / d0).
    { apply (Rmult_le_reg_r d1); auto. replace ((y - x) / d1 * d1) with (y - x) by (field; lra).
      apply Rle_trans with (M / 2). unfold x, y. lra.
      apply (Rmult_le_reg_r d0); auto. replace (M / d0 * d1 * d0) with (M * d1) by (field; lra).
      assert (0 <= M) by (unfold x in *; lra). nra. }
    assert (B1 := big (14 - M - l (i + 1)) d0 2 D0 S0 ltac:(lra) ltac:(lra)).
    assert (G1 : (14 - M - l (i + 1)) / d0 <= (x - l (i + 1) - -14) / d0 - M / d0).
    { replace ((x - l (i + 1) - -14) / d0 - M / d0) with ((x - l (i + 1) - -14 - M) / d0) by (field; lra).
      apply Rmult_le_compat_r. left. apply Rinv_0_lt_compat; auto. unfold x. lra. }
    assert (G2 : (x - l (i + 1) - -14) / d0 <= (h + (x - l (i + 1)) - -14) / d0).
    { apply Rmult_le_compat_r. left. apply Rinv_0_lt_compat; auto. lra. }
    rewrite !Rabs_left1 by lra. split; intros; lra.
  - (* some, some, some *)
    match goal with |- ttol < Rabs (?a / d1 - ?b / d0) <-> ttol < Rabs (?a' / d1 - ?b' / d0) =>
      replace a with a' by ring; replace b with b' by ring end. reflexivity.
Qed.
End Slopes.

Lemma count_pred_copies : forall A (p : A -> bool) l n, count p (copies n l) = (n * count p l)%nat.
Proof. intros. unfold copies. induction n as [|n IH]; simpl; auto. rewrite count_app, IH. auto. Qed.

Lemma tloct_ext : forall ttol (t t' : list R), length t = length t' ->
  (forall i x x', nth_error t i = Some x -> nth_error t' i = Some x' -> (ttol < x <-> ttol < x')) ->
  @stepp_tloct ROps t ttol = @stepp_tloct ROps t' ttol.
Proof.
  intros ttol t t' L E. unfold stepp_tloct. rops.
  replace (map (fun x : R => Rltb ttol x) t) with (map (fun x : R => Rltb ttol x) t'); auto.
  apply list_ext. now rewrite !map_length. intros k a b Ha Hb. rewrite nth_error_map in Ha, Hb.
  destruct (nth_error t' k) as [x'|] eqn:Q'; [|discriminate]. destruct (nth_error t k) as [x|] eqn:Q; [|discriminate].
  cbn [option_map] in Ha, Hb. assert (EA : a = Rltb ttol x') by congruence. assert (EB : b = Rltb ttol x) by congruence.
  specialize (E k _ _ Q Q'). rewrite EA, EB. unfold Rltb. destruct (Rlt_dec ttol x), (Rlt_dec ttol x'); tauto.
Qed.

Lemma combine_app_eq : forall A B (a a' : list A) (b b' : list B), length a = length b ->
  combine (a ++ a') (b ++ b') = combine a b ++ combine a' b'.
Proof. induction a as [|x a IH]; intros a' [|y b] b' L; try discriminate; auto. simpl in *. rewrite IH; auto. Qed.

Lemma combine_copies : forall A B (a : list A) (b : list B) n, length a = length b ->
  combine (copies n a) (copies n b) = copies n (combine a b).
Proof.
  intros A B a b n L. unfold copies. induction n as [|n IH]; [reflexivity|]. simpl.
  rewrite combine_app_eq by auto. now rewrite IH.
Qed.

Lemma C121_copies_proof : forall n (ys ms : list (@T ROps)) dm dt ttol iloc, length ys = length ms -> (0 < n)%nat -> 0 < dt -> ttol <= 3 ->
  (forall e e', In e ys -> In e' ys -> INR (length ys) * (e - e' + 2) <= 10 ^ 12) ->
  @stepp_analysis ROps (copies n ys) (copies n ms) dm dt ttol iloc
  = @stepp_analysis ROps ys ms dm dt ttol iloc.
Proof.
  intros n ys ms dm dt ttol iloc LEN NP DT TT SZ.
  unfold stepp_analysis, stepp_mbin, stepp_time_range. rewrite !map_copies.
  rewrite (maxv_copies n NP), (minv_copies n NP), (maxv_copies n NP), (minv_copies n NP).
  destruct (@minv ROps (map (@round2 ROps) ms)); auto. cbn [bind].
  destruct (@maxv ROps (map (@round2 ROps) ms)); auto. cbn [bind].
  destruct (@maxv ROps ys) as [endt|] eqn:ME; auto. cbn [bind].
  destruct (@minv ROps ys) as [start|] eqn:MS; auto. cbn [bind].
  match goal with |- context [length ?m] => destruct (length m) as [|nb]; auto; set (mbin := m) end.
  match goal with |- context [@stepp_loop ROps _ _ _ _ ?t _ _ _ _] => set (tr := t) end.
  set (nt := length tr).
  assert (Dur : forall i, (i < nt)%nat -> nth_error tr i = Some (INR (i + 1) * dt)).
  { intros i Hi. unfold nt, tr in Hi. rewrite arange_length in Hi. unfold tr. rops. rewrite arange_nth by exact Hi.
    f_equal. rewrite INR_S1. ring. }
  assert (SIZE : forall j, (j < nt)%nat -> INR (length ys) * (INR (j + 1) * dt) <= 10 ^ 12).
  { intros j Hj. unfold nt, tr in Hj. rewrite arange_length in Hj. rops. apply (arange_len_lt _ _ _ _ DT) in Hj.
    apply maxv_spec in ME. apply minv_spec in MS. destruct ME as [ME _]. destruct MS as [MS _].
    specialize (SZ _ _ ME MS). rewrite INR_S1.
    assert (0 <= INR (length ys)) by apply pos_INR. nra. }
  set (rm := map (@round2 ROps) ms).
  assert (E : forall prev bins,
     @stepp_loop ROps (copies n ys) (copies n rm) endt mbin tr ttol iloc prev bins =
     @stepp_loop ROps ys rm endt mbin tr ttol iloc prev bins).
  { intros prev bins. revert prev. induction bins as [|k bins IH]; intros prev; [reflexivity|]. cbn [stepp_loop].
    set (cf := fun j => @stepp_count ROps ys rm endt mbin (INR (j + 1) * dt) k).
    assert (CE : forall t, @stepp_count ROps (copies n ys) (copies n rm) endt mbin t k
                = (n * @stepp_count ROps ys rm endt mbin t k)%nat).
    { intros t. rewrite !(@stepp_count_spec ROps).
      etransitivity; [|apply count_pred_copies]. f_equal.
      apply combine_copies. unfold rm. now rewrite map_length. }
    assert (T0 : @stepp_tloct ROps (@stepp_test ROps (map (fun t => @stepp_count ROps (copies n ys) (copies n rm) endt mbin t k) tr) tr) ttol
               = @stepp_tloct ROps (@stepp_test ROps (map (fun t => @stepp_count ROps ys rm endt mbin t k) tr) tr) ttol).
    { assert (C1 : map (fun t => @stepp_count ROps ys rm endt mbin t k) tr = map cf (seq 0 nt))
        by exact (map_of_nth _ _ (fun t => @stepp_count ROps ys rm endt mbin t k) tr (fun i => INR (i + 1) * dt) nt eq_refl Dur).
      assert (C2 : map (fun t => @stepp_count ROps (copies n ys) (copies n rm) endt mbin t k) tr
                 = map (fun j => (n * cf j)%nat) (seq 0 nt)).
      { etransitivity; [exact (map_of_nth _ _ (fun t => @stepp_count ROps (copies n ys) (copies n rm) endt mbin t k) tr (fun i => INR (i + 1) * dt) nt eq_refl Dur)|].
        apply map_ext. intros j. apply CE. }
      rops. rewrite C1, C2. apply tloct_ext.
      - rewrite !(@length_stepp_test ROps); rewrite ?map_length, ?seq_length; auto.
      - intros i x x' X X'. assert (I2 : (i + 2 < nt)%nat).
        { apply nth_error_lt in X. rewrite (@length_stepp_test ROps) in X by (rewrite map_length, seq_length; auto).
          change (i < nt - 2)%nat in X. lia. }
        pose proof (stepp_test_nth (fun j => (n * cf j)%nat) tr nt dt i DT Dur eq_refl I2) as Y.
        pose proof (stepp_test_nth cf tr nt dt i DT Dur eq_refl I2) as Y'.
        pose proof (eq_trans (eq_sym X) Y) as Z1. pose proof (eq_trans (eq_sym X') Y') as Z2.
        assert (SI : forall a b : R, Some a = Some b -> a = b) by congruence.
        apply SI in Z1. apply SI in Z2. rewrite Z1, Z2.
        apply (slopes_same dt cf (length ys) nt n); auto.
        + intros p q AB _. unfold cf. rewrite !(@stepp_count_spec ROps). apply count_le. intros e _. rops.
          rewrite !andb_true_iff. intros [A B]. split; auto. apply Rleb_true in A. apply Rleb_true.
          assert (INR (p + 1) <= INR (q + 1)) by (apply le_INR; lia). nra.
        + intros j _. unfold cf. rewrite (@stepp_count_spec ROps). eapply Nat.le_trans. apply count_le_length.
          rewrite combine_length. apply Nat.le_min_l. }
    rops. rewrite T0. destruct (nth_error tr _); auto. rewrite IH. auto. }
  rewrite E. reflexivity.
Qed.

Lemma C121_proof : forall n (evs evs' : list (R * R)) dm dt ttol iloc, (0 < n)%nat -> 0 < dt -> ttol <= 3 ->
  Permutation evs' (copies n evs) ->
  (forall e e', In e evs -> In e' evs -> INR (length evs) * (fst e - fst e' + 2) <= 10 ^ 12) ->
  @stepp_analysis ROps (map fst evs') (map snd evs') dm dt ttol iloc
  = @stepp_analysis ROps (map fst evs) (map snd evs) dm dt ttol iloc.
Proof.
  intros n evs evs' dm dt ttol iloc NP DT TT P SZ. 
  assert (E : @stepp_analysis ROps (map fst (copies n evs)) (map snd (copies n evs)) dm dt ttol iloc
            = @stepp_analysis ROps (map fst evs) (map snd evs) dm dt ttol iloc).
  { rewrite (map_copies _ _ fst), (map_copies _ _ snd). apply C121_copies_proof; auto; rewrite !map_length; auto.
    intros e e' I I'. apply in_map_iff in I. apply in_map_iff in I'. destruct I as (x & <- & I). destruct I' as (y & <- & I').
    apply (SZ x y); auto. }
  rewrite <- E.
  assert (CC : forall l : list (R * R), combine (map fst l) (map snd l) = l) by (induction l as [|[a b] l IH]; simpl; congruence).
  apply C33_proof. now rewrite !map_length. now rewrite !map_length. rewrite !CC. auto.
Qed.
