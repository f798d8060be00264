(** Proofs about the declustering windows (C133, C134). *)
From Coq Require Import ZArith Reals Lra Lia List Bool Arith.
From Verif Require Import Base BaseFacts Ops RFacts CatUtil Decluster DeclusterSpec DeclusterProofs
  GeoProofs AfteranR WindowSpec.
Import ListNotations.
Local Open Scope R_scope.

(** ** Powers of rationals *)
Lemma pow_ratio : forall n d q, (0 < d)%Z -> (IZR n / IZR d) ^ q = IZR (n ^ Z.of_nat q) / IZR (d ^ Z.of_nat q).
Proof.
  intros n d q D. rewrite <- !pow_IZR. unfold Rdiv. rewrite Rpow_mult_distr, pow_inv. reflexivity.
Qed.

Lemma ratio_le_pow : forall a b n d q, (0 < b)%Z -> (0 < d)%Z ->
  (a * d ^ Z.of_nat q <=? n ^ Z.of_nat q * b)%Z = true -> IZR a / IZR b <= (IZR n / IZR d) ^ q.
Proof.
  intros a b n d q B D H. rewrite pow_ratio by auto. apply Z.leb_le in H.
  assert (P : (0 < d ^ Z.of_nat q)%Z) by (apply Z.pow_pos_nonneg; lia).
  apply IZR_le in H. rewrite !mult_IZR in H. apply IZR_lt in P, B.
  apply Rmult_le_reg_r with (IZR b); auto. apply Rmult_le_reg_r with (IZR (d ^ Z.of_nat q)); auto.
  field_simplify; lra.
Qed.

Lemma pow_lt_mono : forall x y q, (0 < q)%nat -> 0 <= x -> x < y -> x ^ q < y ^ q.
Proof.
  intros x y q Q X L. destruct q; [lia|]. clear Q. induction q. rewrite !pow_1. lra.
  rewrite <- (tech_pow_Rmult x), <- (tech_pow_Rmult y). apply Rmult_le_0_lt_compat; auto. apply pow_le; auto.
Qed.

Lemma power10_up : forall x p q n d, (0 < q)%nat -> (0 < d)%Z -> (0 <= n)%Z ->
  x <= INR p / INR q -> (10 ^ Z.of_nat p * d ^ Z.of_nat q <=? n ^ Z.of_nat q * 1)%Z = true ->
  Rpower 10 x <= IZR n / IZR d.
Proof.
  intros x p q n d Q D N X H. apply Rle_trans with (Rpower 10 (INR p / INR q)). now apply power10_mono.
  apply ratio_le_pow in H; try lia. replace (IZR (10 ^ Z.of_nat p) / 1) with (10 ^ p) in H by (rewrite <- pow_IZR; field).
  assert (0 <= IZR n / IZR d). { apply IZR_le in N. apply IZR_lt in D. apply Rmult_le_pos; auto. left. now apply Rinv_0_lt_compat. }
  destruct (Rle_dec (Rpower 10 (INR p / INR q)) (IZR n / IZR d)) as [L|L]; auto. exfalso. apply Rnot_le_lt in L.
  assert (H1 : (IZR n / IZR d) ^ q < Rpower 10 (INR p / INR q) ^ q) by (apply pow_lt_mono; auto).
  rewrite Rpower10_pow in H1 by auto. lra.
Qed.

Lemma power10_down : forall x p q n d, (0 < q)%nat -> (0 < d)%Z -> (0 <= n)%Z ->
  INR p / INR q <= x -> (n ^ Z.of_nat q <=? 10 ^ Z.of_nat p * d ^ Z.of_nat q)%Z = true ->
  IZR n / IZR d <= Rpower 10 x.
Proof.
  intros x p q n d Q D N X H. apply Rle_trans with (Rpower 10 (INR p / INR q)); [|now apply power10_mono].
  destruct (Rle_dec (IZR n / IZR d) (Rpower 10 (INR p / INR q))) as [L|L]; auto. exfalso. apply Rnot_le_lt in L.
  assert (G : 10 ^ p < (IZR n / IZR d) ^ q).
  { rewrite <- (Rpower10_pow p q) by auto. assert (0 < Rpower 10 (INR p / INR q)) by apply Rpower_pos.
    apply pow_lt_mono; auto; lra. }
  apply Z.leb_le in H. apply IZR_le in H. rewrite mult_IZR, <- !pow_IZR in H. apply IZR_lt in D.
  unfold Rdiv in G. rewrite Rpow_mult_distr, pow_inv in G.
  assert (P : 0 < IZR d ^ q) by (apply pow_lt; auto).
  apply Rmult_lt_compat_r with (r := IZR d ^ q) in G; auto. rewrite Rmult_assoc, Rinv_l in G by lra. lra.
Qed.

(** ** Gardner-Knopoff *)

Lemma gk_low : forall m, m < 65/10 ->
  fst (@gk_window ROps m) = Rpower 10 (1238/10000 * m + 983/1000) /\
  days_of (snd (@gk_window ROps m)) = Rpower 10 (5409/10000 * m - 547/1000).
Proof.
  intros m L. unfold gk_window, days_of, lit. rops. split; auto. cbn [snd].
  rewrite (proj2 (Rltb_true _ _)) by exact L. field.
Qed.

Lemma gk_high : forall m, 65/10 <= m ->
  fst (@gk_window ROps m) = Rpower 10 (1238/10000 * m + 983/1000) /\
  days_of (snd (@gk_window ROps m)) = Rpower 10 (32/1000 * m + 27389/10000).
Proof.
  intros m L. unfold gk_window, days_of, lit. rops. split; auto. cbn [snd].
  replace (Rltb m (65/10)) with false. field. symmetry. apply Rltb_false. lra.
Qed.

Ltac num := rewrite !INR_IZR_INZ; cbn [Z.of_nat Pos.of_succ_nat Pos.succ]; lra.
Ltac pw_up p q n d := eapply Rle_trans; [apply (power10_up _ p q n d);
  [lia|lia|lia|num|vm_compute; reflexivity]|lra].
Ltac pw_down p q n d := eapply Rle_trans; [|apply (power10_down _ p q n d);
  [lia|lia|lia|num|vm_compute; reflexivity]]; lra.

Lemma C133_proof : forall m, 5/2 <= m <= 8 ->
  exists f r, @window_calc ROps TDW_GARDNERKNOPOFF = Ok f /\ In r (steps gk_table) /\
    between_rows m (fst (f m)) (days_of (snd (f m))) r.
Proof.
  intros m B. exists (@gk_window ROps).
  destruct (Rlt_dec m 3) as [L0|L0].
  { exists (((5/2), (39/2), 6), (3, (45/2), (23/2))). split; [reflexivity|]. split; [unfold gk_table; cbn [steps In]; tauto|].
    destruct (gk_low m ltac:(lra)) as [E1 E2]. unfold between_rows. rewrite E1, E2. split; [lra|]. split; split.
    - pw_down 129%nat 100%nat 1853%Z 100%Z.
    - pw_up 136%nat 100%nat 2362%Z 100%Z.
    - pw_down 80%nat 100%nat 510%Z 100%Z.
    - pw_up 108%nat 100%nat 1380%Z 100%Z. }
  destruct (Rlt_dec m (7/2)) as [L1|L1].
  { exists ((3, (45/2), (23/2)), ((7/2), 26, 22)). split; [reflexivity|]. split; [unfold gk_table; cbn [steps In]; tauto|].
    destruct (gk_low m ltac:(lra)) as [E1 E2]. unfold between_rows. rewrite E1, E2. split; [lra|]. split; split.
    - pw_down 135%nat 100%nat 2138%Z 100%Z.
    - pw_up 142%nat 100%nat 2730%Z 100%Z.
    - pw_down 107%nat 100%nat 978%Z 100%Z.
    - pw_up 135%nat 100%nat 2640%Z 100%Z. }
  destruct (Rlt_dec m 4) as [L2|L2].
  { exists (((7/2), 26, 22), (4, 30, 42)). split; [reflexivity|]. split; [unfold gk_table; cbn [steps In]; tauto|].
    destruct (gk_low m ltac:(lra)) as [E1 E2]. unfold between_rows. rewrite E1, E2. split; [lra|]. split; split.
    - pw_down 141%nat 100%nat 2470%Z 100%Z.
    - pw_up 148%nat 100%nat 3150%Z 100%Z.
    - pw_down 134%nat 100%nat 1870%Z 100%Z.
    - pw_up 162%nat 100%nat 5040%Z 100%Z. }
  destruct (Rlt_dec m (9/2)) as [L3|L3].
  { exists ((4, 30, 42), ((9/2), 35, 83)). split; [reflexivity|]. split; [unfold gk_table; cbn [steps In]; tauto|].
    destruct (gk_low m ltac:(lra)) as [E1 E2]. unfold between_rows. rewrite E1, E2. split; [lra|]. split; split.
    - pw_down 147%nat 100%nat 2850%Z 100%Z.
    - pw_up 155%nat 100%nat 3675%Z 100%Z.
    - pw_down 161%nat 100%nat 3570%Z 100%Z.
    - pw_up 189%nat 100%nat 9960%Z 100%Z. }
  destruct (Rlt_dec m 5) as [L4|L4].
  { exists (((9/2), 35, 83), (5, 40, 155)). split; [reflexivity|]. split; [unfold gk_table; cbn [steps In]; tauto|].
    destruct (gk_low m ltac:(lra)) as [E1 E2]. unfold between_rows. rewrite E1, E2. split; [lra|]. split; split.
    - pw_down 154%nat 100%nat 3325%Z 100%Z.
    - pw_up 161%nat 100%nat 4200%Z 100%Z.
    - pw_down 188%nat 100%nat 7055%Z 100%Z.
    - pw_up 216%nat 100%nat 18600%Z 100%Z. }
  destruct (Rlt_dec m (11/2)) as [L5|L5].
  { exists ((5, 40, 155), ((11/2), 47, 290)). split; [reflexivity|]. split; [unfold gk_table; cbn [steps In]; tauto|].
    destruct (gk_low m ltac:(lra)) as [E1 E2]. unfold between_rows. rewrite E1, E2. split; [lra|]. split; split.
    - pw_down 160%nat 100%nat 3800%Z 100%Z.
    - pw_up 167%nat 100%nat 4935%Z 100%Z.
    - pw_down 215%nat 100%nat 13175%Z 100%Z.
    - pw_up 243%nat 100%nat 34800%Z 100%Z. }
  destruct (Rlt_dec m 6) as [L6|L6].
  { exists (((11/2), 47, 290), (6, 54, 510)). split; [reflexivity|]. split; [unfold gk_table; cbn [steps In]; tauto|].
    destruct (gk_low m ltac:(lra)) as [E1 E2]. unfold between_rows. rewrite E1, E2. split; [lra|]. split; split.
    - pw_down 166%nat 100%nat 4465%Z 100%Z.
    - pw_up 173%nat 100%nat 5670%Z 100%Z.
    - pw_down 242%nat 100%nat 24650%Z 100%Z.
    - pw_up 270%nat 100%nat 61200%Z 100%Z. }
  destruct (Rlt_dec m (13/2)) as [L7|L7].
  { exists ((6, 54, 510), ((13/2), 61, 790)). split; [reflexivity|]. split; [unfold gk_table; cbn [steps In]; tauto|].
    destruct (gk_low m ltac:(lra)) as [E1 E2]. unfold between_rows. rewrite E1, E2. split; [lra|]. split; split.
    - pw_down 172%nat 100%nat 5130%Z 100%Z.
    - pw_up 179%nat 100%nat 6405%Z 100%Z.
    - pw_down 269%nat 100%nat 43350%Z 100%Z.
    - pw_up 297%nat 100%nat 94800%Z 100%Z. }
  destruct (Rlt_dec m 7) as [L8|L8].
  { exists (((13/2), 61, 790), (7, 70, 915)). split; [reflexivity|]. split; [unfold gk_table; cbn [steps In]; tauto|].
    destruct (gk_high m ltac:(lra)) as [E1 E2]. unfold between_rows. rewrite E1, E2. split; [lra|]. split; split.
    - pw_down 178%nat 100%nat 5795%Z 100%Z.
    - pw_up 185%nat 100%nat 7350%Z 100%Z.
    - pw_down 294%nat 100%nat 67150%Z 100%Z.
    - pw_up 297%nat 100%nat 109800%Z 100%Z. }
  destruct (Rlt_dec m (15/2)) as [L9|L9].
  { exists ((7, 70, 915), ((15/2), 81, 960)). split; [reflexivity|]. split; [unfold gk_table; cbn [steps In]; tauto|].
    destruct (gk_high m ltac:(lra)) as [E1 E2]. unfold between_rows. rewrite E1, E2. split; [lra|]. split; split.
    - pw_down 184%nat 100%nat 6650%Z 100%Z.
    - pw_up 192%nat 100%nat 8505%Z 100%Z.
    - pw_down 296%nat 100%nat 77775%Z 100%Z.
    - pw_up 298%nat 100%nat 115200%Z 100%Z. }
  { exists (((15/2), 81, 960), (8, 94, 985)). split; [reflexivity|]. split; [unfold gk_table; cbn [steps In]; tauto|].
    destruct (gk_high m ltac:(lra)) as [E1 E2]. unfold between_rows. rewrite E1, E2. split; [lra|]. split; split.
    - pw_down 191%nat 100%nat 7695%Z 100%Z.
    - pw_up 198%nat 100%nat 9870%Z 100%Z.
    - pw_down 297%nat 100%nat 81600%Z 100%Z.
    - pw_up 300%nat 100%nat 118200%Z 100%Z. }
Qed.

(** ** Uhrhammer *)

Lemma uhrhammer_three_weeks : forall m, 0 <= m <= 9 ->
  19 <= days_of (snd (@uhrhammer_window ROps m)) < 24.
Proof.
  intros m B. unfold uhrhammer_window, days_of, lit. rops. cbn [snd].
  split.
  - assert (H : 19 / 365 <= (6113 / 6400) ^ 64) by (apply ratio_le_pow; [lia|lia|vm_compute; reflexivity]).
    assert (U := exp_upper (287/100) 64 ltac:(lia)). rewrite INR_IZR_INZ in U. cbn [Z.of_nat Pos.of_succ_nat Pos.succ] in U.
    replace (1 - 287 / 100 / 64) with (6113 / 6400) in U by lra. specialize (U ltac:(lra)).
    assert (E : exp (287/100) * exp (- (287/100)) = 1) by (rewrite <- exp_plus, Rplus_opp_r; apply exp_0).
    assert (M : exp (- (287/100)) <= exp (- (287 / 100) + 1235 / 1000 * m / 365)) by (apply exp_mono; lra).
    assert (0 < exp (287/100)) by apply exp_pos. assert (0 < exp (- (287/100))) by apply exp_pos.
    assert ((6113 / 6400) ^ 64 <= exp (- (287/100))).
    { apply Rmult_le_reg_l with (exp (287/100)); auto. lra. }
    lra.
  - assert (H : 3650 / 239 <= (6680 / 6400) ^ 64) by (apply ratio_le_pow; [lia|lia|vm_compute; reflexivity]).
    assert (U := exp_upper (- (28/10)) 64 ltac:(lia)). rewrite INR_IZR_INZ in U. cbn [Z.of_nat Pos.of_succ_nat Pos.succ] in U.
    replace (1 - - (28 / 10) / 64) with (6680 / 6400) in U by lra. specialize (U ltac:(lra)).
    assert (M : exp (- (287 / 100) + 1235 / 1000 * m / 365) <= exp (- (28/10))) by (apply exp_mono; lra).
    assert (0 < exp (- (28/10))) by apply exp_pos.
    assert (exp (- (28/10)) * (3650 / 239) <= 1). { apply Rle_trans with (exp (- (28/10)) * (6680 / 6400) ^ 64); auto. apply Rmult_le_compat_l; lra. }
    lra.
Qed.

Lemma law_values : uhrhammer_days 4 < 19 /\ 24 < uhrhammer_days 6 /\ 1000 < uhrhammer_days 9.
Proof.
  unfold uhrhammer_days. split; [|split].
  - replace (- (287/100) + 1235/1000 * 4) with (207/100) by lra.
    assert (U := exp_upper (207/100) 10 ltac:(lia)). rewrite INR_IZR_INZ in U. cbn [Z.of_nat Pos.of_succ_nat Pos.succ] in U.
    replace (1 - 207 / 100 / 10) with (793 / 1000) in U by lra. specialize (U ltac:(lra)).
    assert (H : 1 / 18 <= (793 / 1000) ^ 10) by (apply ratio_le_pow; [lia|lia|vm_compute; reflexivity]).
    assert (0 < exp (207/100)) by apply exp_pos.
    assert (exp (207/100) * (1 / 18) <= 1). { eapply Rle_trans; [|exact U]. apply Rmult_le_compat_l; lra. }
    lra.
  - replace (- (287/100) + 1235/1000 * 6) with (454/100) by lra.
    assert (U := exp_upper (- (454/100)) 16 ltac:(lia)). rewrite INR_IZR_INZ in U. cbn [Z.of_nat Pos.of_succ_nat Pos.succ] in U.
    replace (1 - - (454 / 100) / 16) with (2054 / 1600) in U by lra. specialize (U ltac:(lra)).
    assert (H : 25 / 1 <= (2054 / 1600) ^ 16) by (apply ratio_le_pow; [lia|lia|vm_compute; reflexivity]).
    assert (P : 0 < exp (- (454/100))) by apply exp_pos. assert (Q : 0 < exp (454/100)) by apply exp_pos.
    assert (E : exp (454/100) * exp (- (454/100)) = 1) by (rewrite <- exp_plus, Rplus_opp_r; apply exp_0).
    assert (exp (- (454/100)) * 25 <= 1). { eapply Rle_trans; [|exact U]. apply Rmult_le_compat_l; lra. }
    apply Rmult_lt_reg_r with (exp (- (454/100))); auto. lra.
  - replace (- (287/100) + 1235/1000 * 9) with (8245/1000) by lra.
    assert (U := exp_upper (- (8245/1000)) 32 ltac:(lia)). rewrite INR_IZR_INZ in U. cbn [Z.of_nat Pos.of_succ_nat Pos.succ] in U.
    replace (1 - - (8245 / 1000) / 32) with (40245 / 32000) in U by lra. specialize (U ltac:(lra)).
    assert (H : 1001 / 1 <= (40245 / 32000) ^ 32) by (apply ratio_le_pow; [lia|lia|vm_compute; reflexivity]).
    assert (P : 0 < exp (- (8245/1000))) by apply exp_pos. assert (Q : 0 < exp (8245/1000)) by apply exp_pos.
    assert (E : exp (8245/1000) * exp (- (8245/1000)) = 1) by (rewrite <- exp_plus, Rplus_opp_r; apply exp_0).
    assert (exp (- (8245/1000)) * 1001 <= 1). { eapply Rle_trans; [|exact U]. apply Rmult_le_compat_l; lra. }
    apply Rmult_lt_reg_r with (exp (- (8245/1000))); auto. lra.
Qed.

Lemma C134_refuted_proof : exists f m, @window_calc ROps TDW_UHRHAMMER = Ok f /\ 0 <= m <= 9 /\
  40 * days_of (snd (f m)) < uhrhammer_days m.
Proof.
  exists (@uhrhammer_window ROps), 9. split; [reflexivity|]. split; [lra|].
  destruct (uhrhammer_three_weeks 9 ltac:(lra)). destruct law_values as (_ & _ & ?). lra.
Qed.

Lemma C134_partial_proof : forall f m, @window_calc ROps TDW_UHRHAMMER = Ok f -> 0 <= m <= 9 ->
  19 <= days_of (snd (f m)) < 24 /\
  (m <= 4 -> uhrhammer_days m < days_of (snd (f m))) /\
  (6 <= m -> days_of (snd (f m)) < uhrhammer_days m).
Proof.
  intros f m F B. injection F as <-. assert (H := uhrhammer_three_weeks m B). destruct law_values as (L4 & L6 & _).
  split; auto. split; intros.
  - apply Rle_lt_trans with (uhrhammer_days 4); [|lra]. unfold uhrhammer_days. apply exp_mono. lra.
  - apply Rlt_le_trans with (uhrhammer_days 6); [lra|]. unfold uhrhammer_days. apply exp_mono. lra.
Qed.

Lemma far_in_time : forall fs (e e' : event ROps), 0 <= fs <= 1 -> 0 <= ev_mw e <= 9 ->
  (forall dt, delay e e' = Some dt -> 24 < days_of (Rabs dt)) ->
  @in_window ROps TDW_UHRHAMMER fs e e' = false.
Proof.
  intros fs e e' F M S. unfold in_window. cbn [window_calc].
  destruct (delay e e') as [dt|]; auto. specialize (S dt eq_refl).
  assert (W := uhrhammer_three_weeks (ev_mw e) M).
  destruct (@uhrhammer_window ROps (ev_mw e)) as [sp tw]. cbn [snd] in W. unfold days_of in *. rops.
  apply andb_false_iff. left. apply andb_false_iff.
  unfold Rabs in S. destruct (Rcase_abs dt).
  - left. apply Rleb_false. nra.
  - right. apply Rleb_false. lra.
Qed.

Lemma C134_gap_proof : forall argsort, @is_argsort ROps argsort ->
  forall (cat : list (event ROps)) fs vcl vmain flag,
  0 <= fs <= 1 -> (forall e, In e cat -> 0 <= ev_mw e <= 9) ->
  (forall k k' e e' dt, k <> k' -> nth_error cat k = Some e -> nth_error cat k' = Some e' ->
     delay e e' = Some dt -> 24 < days_of (Rabs dt)) ->
  @gardner_knopoff_decluster ROps argsort cat TDW_UHRHAMMER fs = Ok (vcl, vmain, flag) ->
  vmain = cat /\ flag = repeat 0%Z (length cat).
Proof.
  intros argsort A cat fs vcl vmain flag F M S H.
  destruct (C15_proof _ A _ _ _ _ _ _ H) as (_ & LF & _ & V & _).
  assert (Z0 : flag = repeat 0%Z (length cat)).
  { apply nth_error_ext. intros k. destruct (nth_error cat k) as [e|] eqn:E.
    - assert (I : In e cat) by (eapply nth_error_In; eauto).
      assert (K : (k < length cat)%nat) by (apply nth_error_Some; congruence).
      rewrite nth_error_repeat by auto.
      refine (proj2 (C18_isolated_proof _ A _ _ _ _ _ _ k e H E _)).
      intros k' e' N E'. assert (I' : In e' cat) by (eapply nth_error_In; eauto).
      split; apply far_in_time; auto; intros dt D.
      + exact (S k k' e e' dt (not_eq_sym N) E E' D).
      + exact (S k' k e' e dt N E' E D).
    - apply nth_error_None in E. rewrite (proj2 (nth_error_None _ _)), (proj2 (nth_error_None _ _)); auto.
      rewrite repeat_length. auto. lia. }
  split; auto. rewrite V, Z0. clear. induction cat; simpl; f_equal; auto.
Qed.
