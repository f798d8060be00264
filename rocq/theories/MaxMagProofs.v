(** Proofs about maximum_magnitude.py (C44-C52). *)
From Coq Require Import String ZArith Arith Bool List Lia Reals Lra Permutation Sorted.
From Verif Require Import Base Ops BaseFacts RFacts SteppSpec MaxMag SteppProofs GeoProofs.
Import ListNotations.
Local Open Scope R_scope.

(** ** Hastings' approximation *)

Definition hpoly (x : R) : R :=
  1 + 196854 / 1000000 * x + - (115194 / 1000000) * (x * x) + 344 / 1000000 * (x * x * x)
  + 19527 / 1000000 * (x * x * x * x).

Lemma hpoly_mono : forall x y, 0 <= x -> x < y -> hpoly x < hpoly y.
Proof.
  intros x y Hx H. unfold hpoly.
  assert (E3 : x * x * x < y * y * y). { assert (x * x < y * y) by nra. nra. }
  set (s := x + y). set (u := s / 2).
  assert (Hu : 0 < u) by (unfold u, s; lra).
  assert (E4 : y * y * y * y - x * x * x * x >= (y - x) * (4 * (u * u * u))).
  { replace (y * y * y * y - x * x * x * x) with ((y - x) * (s * (x * x + y * y))) by (unfold s; ring).
    apply Rle_ge. apply Rmult_le_compat_l; [lra|].
    replace (4 * (u * u * u)) with (s * (s * s / 2)) by (unfold u; field).
    apply Rmult_le_compat_l; [unfold s; lra|]. unfold s.
    assert (0 <= (x - y) * (x - y)) by apply Rle_0_sqr. lra. }
  assert (E2 : y * y - x * x = (y - x) * (2 * u)) by (unfold u, s; field).
  assert (Q : 3 * u - 2 <= u * u * u).
  { assert (0 <= (u - 1) * (u - 1) * (u + 2)). { apply Rmult_le_pos; [apply Rle_0_sqr|lra]. }
    replace ((u - 1) * (u - 1) * (u + 2)) with (u * u * u - 3 * u + 2) in H0 by ring. lra. }
  assert (D : 0 < 196854 / 1000000 - 115194 / 1000000 * (2 * u) + 19527 / 1000000 * (4 * (u * u * u))) by lra.
  assert (P := Rmult_lt_0_compat (y - x) _ ltac:(lra) D).
  replace ((y - x) * (196854 / 1000000 - 115194 / 1000000 * (2 * u) + 19527 / 1000000 * (4 * (u * u * u))))
    with (196854 / 1000000 * (y - x) - 115194 / 1000000 * ((y - x) * (2 * u))
          + 19527 / 1000000 * ((y - x) * (4 * (u * u * u)))) in P by ring.
  rewrite <- E2 in P. lra.
Qed.

Lemma hpoly_ge1 : forall x, 0 <= x -> 1 <= hpoly x.
Proof.
  intros x [H|<-].
  - assert (A := hpoly_mono 0 x (Rle_refl 0) H). unfold hpoly at 1 in A. lra.
  - unfold hpoly. lra.
Qed.

(** Value for a non-negative normalised argument up to 5. *)
Definition hup (x : R) : R := 1 - 5 / 10 * (1 / (hpoly x * (hpoly x * (hpoly x * (hpoly x * 1))))).

Lemma pow4_mono : forall a b, 0 < a -> a < b -> a * (a * (a * (a * 1))) < b * (b * (b * (b * 1))).
Proof.
  intros a b Ha H. assert (a * a < b * b) by nra. assert (0 < a * a) by nra.
  replace (a * (a * (a * (a * 1)))) with ((a * a) * (a * a)) by ring.
  replace (b * (b * (b * (b * 1)))) with ((b * b) * (b * b)) by ring. nra.
Qed.

Lemma hup_mono : forall x y, 0 <= x -> x < y -> hup x < hup y.
Proof.
  intros x y Hx H. assert (A := hpoly_mono x y Hx H). assert (B := hpoly_ge1 x Hx).
  assert (C := pow4_mono (hpoly x) (hpoly y) ltac:(lra) A). unfold hup.
  set (p := hpoly x * _) in *. set (q := hpoly y * _) in *.
  assert (0 < p). { unfold p. assert (0 < hpoly x) by lra. repeat apply Rmult_lt_0_compat; lra. }
  assert (/ q < / p). { apply Rinv_lt_contravar; auto. apply Rmult_lt_0_compat; lra. }
  unfold Rdiv. lra.
Qed.

Lemma hup_0 : hup 0 = 1 / 2.
Proof. unfold hup, hpoly. field. Qed.

Lemma hup_range : forall x, 0 <= x -> 1 / 2 <= hup x < 1.
Proof.
  intros x Hx. split.
  - destruct Hx as [Hx|<-]. assert (A := hup_mono 0 x (Rle_refl 0) Hx). rewrite hup_0 in A. lra. rewrite hup_0. lra.
  - unfold hup. assert (B := hpoly_ge1 x Hx). set (p := hpoly x * _).
    assert (0 < p). { unfold p. assert (0 < hpoly x) by lra. repeat apply Rmult_lt_0_compat; lra. }
    assert (0 < 1 / p) by (apply Rdiv_lt_0_compat; lra). lra.
Qed.

(** The function of the normalised argument. *)
Definition hst (z : R) : R :=
  if Rltb z (-5) then 1 else if Rltb 5 z then 1 else if Rltb z 0 then 1 - hup (- z) else hup z.

Lemma hastings_eval : forall barx sigx x,
  @gauss_cdf_hastings1 ROps barx sigx x = hst ((x - barx) / sigx).
Proof.
  intros barx sigx x. unfold gauss_cdf_hastings1, hst, lit. rops.
  set (z := (x - barx) / sigx).
  change (- (5)) with (-5).
  assert (E : forall w, 1 - 5 / 10 * (1 / @pown ROps (1 + 196854 / 1000000 * w + - (115194 / 1000000) * @pown ROps w 2
     + 344 / 1000000 * @pown ROps w 3 + 19527 / 1000000 * @pown ROps w 4) 4) = hup w).
  { intros w. unfold hup. cbn [pown]. rops.
    replace (1 + 196854 / 1000000 * w + - (115194 / 1000000) * (w * (w * 1)) + 344 / 1000000 * (w * (w * (w * 1)))
       + 19527 / 1000000 * (w * (w * (w * (w * 1))))) with (hpoly w) by (unfold hpoly; ring). reflexivity. }
  rewrite E.
  destruct (Rltb z (-5)) eqn:A.
  - apply Rltb_true in A. rdec. lra.
  - apply Rltb_false in A. destruct (Rltb 5 z) eqn:B.
    + apply Rltb_true in B. rdec. auto.
    + apply Rltb_false in B. destruct (Rltb z 0) eqn:C.
      * apply Rltb_true in C. rewrite Rabs_left by lra. auto.
      * apply Rltb_false in C. rewrite Rabs_right by lra. auto.
Qed.

Lemma hst_mono : forall x y, -5 <= x -> x <= y -> hst x <= hst y.
Proof.
  intros x y Hx H. unfold hst. rdec.
  destruct (Rltb 5 y) eqn:B.
  - apply Rltb_true in B. destruct (Rltb 5 x) eqn:A. lra. apply Rltb_false in A.
    destruct (Rltb x 0) eqn:C.
    + apply Rltb_true in C. assert (Q := hup_range (- x)). lra.
    + apply Rltb_false in C. assert (Q := hup_range x). lra.
  - apply Rltb_false in B. rdec. destruct (Rltb x 0) eqn:C.
    + apply Rltb_true in C. assert (Q := hup_range (- x)). destruct (Rltb y 0) eqn:D.
      * apply Rltb_true in D. destruct (Req_dec x y) as [->|N]; [lra|].
        assert (Q2 := hup_mono (- y) (- x)). lra.
      * apply Rltb_false in D. assert (Q2 := hup_range y). lra.
    + apply Rltb_false in C. rdec. destruct (Req_dec x y) as [->|N]; [lra|].
      assert (Q2 := hup_mono x y). lra.
Qed.

Lemma hst_range : forall x, 0 <= hst x <= 1.
Proof.
  intros x. unfold hst. destruct (Rltb x (-5)); [lra|]. destruct (Rltb 5 x); [lra|].
  destruct (Rltb x 0) eqn:C.
  - apply Rltb_true in C. assert (Q := hup_range (- x)). lra.
  - apply Rltb_false in C. assert (Q := hup_range x). lra.
Qed.

Lemma hst_sym : forall x, -5 <= x <= 5 -> hst (- x) = 1 - hst x.
Proof.
  intros x H. unfold hst. rdec. destruct (Rtotal_order x 0) as [C|[->|C]].
  - rdec. lra.
  - rewrite Ropp_0. rdec. rewrite hup_0. lra.
  - rdec. rewrite Ropp_involutive. lra.
Qed.

Lemma C44_proof : forall (barx sigx : R), 0 < sigx ->
  let F x := @gauss_cdf_hastings1 ROps barx sigx x in
  (forall x, barx - 5 * sigx <= x <= barx + 5 * sigx -> 0 < F x < 1) /\
  F barx = 1 / 2 /\
  (forall d, - 5 * sigx <= d <= 5 * sigx -> F (barx - d) = 1 - F (barx + d)) /\
  (forall x y, barx - 5 * sigx <= x -> x < y -> y <= barx + 5 * sigx -> F x < F y).
Proof.
  intros barx sigx Hs F.
  assert (IS : 0 < / sigx) by (apply Rinv_0_lt_compat; auto).
  assert (NR : forall x k, barx + k * sigx <= x -> k <= (x - barx) / sigx).
  { intros x k H. apply (Rmult_le_reg_r sigx); auto. unfold Rdiv. rewrite Rmult_assoc, Rinv_l by lra. lra. }
  assert (NL : forall x k, x <= barx + k * sigx -> (x - barx) / sigx <= k).
  { intros x k H. apply (Rmult_le_reg_r sigx); auto. unfold Rdiv. rewrite Rmult_assoc, Rinv_l by lra. lra. }
  unfold F. split; [|split; [|split]].
  - intros x [H1 H2]. rewrite hastings_eval. specialize (NR x (-5) ltac:(lra)). specialize (NL x 5 ltac:(lra)).
    set (z := (x - barx) / sigx) in *. unfold hst. rdec.
    destruct (Rltb z 0) eqn:C.
    + apply Rltb_true in C. assert (Q := hup_range (- z)). lra.
    + apply Rltb_false in C. assert (Q := hup_range z). lra.
  - rewrite hastings_eval. replace ((barx - barx) / sigx) with 0 by (field; lra). unfold hst. rdec. apply hup_0.
  - intros d Hd. rewrite !hastings_eval.
    replace ((barx - d - barx) / sigx) with (- (d / sigx)) by (field; lra).
    replace ((barx + d - barx) / sigx) with (d / sigx) by (field; lra). apply hst_sym.
    specialize (NR (barx + d) (-5) ltac:(lra)). specialize (NL (barx + d) 5 ltac:(lra)).
    replace ((barx + d - barx) / sigx) with (d / sigx) in * by (field; lra). lra.
  - intros x y H1 H2 H3. rewrite !hastings_eval. specialize (NR x (-5) ltac:(lra)). specialize (NL y 5 ltac:(lra)).
    assert (L : (x - barx) / sigx < (y - barx) / sigx). { unfold Rdiv. apply Rmult_lt_compat_r; lra. }
    set (z := (x - barx) / sigx) in *. set (w := (y - barx) / sigx) in *. unfold hst. rdec.
    destruct (Rltb z 0) eqn:C.
    + apply Rltb_true in C. destruct (Rltb w 0) eqn:D.
      * apply Rltb_true in D. assert (Q := hup_mono (- w) (- z)). lra.
      * apply Rltb_false in D. assert (Q := hup_range w). destruct (Req_dec w 0).
        { rewrite H, hup_0. assert (Q2 := hup_mono 0 (- z)). rewrite hup_0 in Q2. lra. }
        assert (Q2 := hup_mono 0 w). assert (Q3 := hup_range (- z)). rewrite hup_0 in Q2. lra.
    + apply Rltb_false in C. rdec. apply hup_mono; lra.
Qed.

Lemma C45_refuted_proof : exists x y : R, x < y /\
  @gauss_cdf_hastings1 ROps 0 1 y < @gauss_cdf_hastings1 ROps 0 1 x /\
  forall z, z < -5 -> @gauss_cdf_hastings1 ROps 0 1 z = 1.
Proof.
  exists (-6), 0. split; [lra|]. split.
  - rewrite !hastings_eval. replace ((0 - 0) / 1) with 0 by field. replace ((-6 - 0) / 1) with (-6) by field.
    unfold hst. rdec. rewrite hup_0. lra.
  - intros z H. rewrite hastings_eval. replace ((z - 0) / 1) with z by field. unfold hst. rdec. auto.
Qed.

Lemma C45_partial_proof : forall (barx sigx : R), 0 < sigx ->
  let F x := @gauss_cdf_hastings1 ROps barx sigx x in
  (forall x, 0 <= F x <= 1) /\
  (forall x, barx + 5 * sigx < x -> F x = 1) /\
  (forall x y, barx - 5 * sigx <= x -> x <= y -> F x <= F y).
Proof.
  intros barx sigx Hs F.
  assert (IS : 0 < / sigx) by (apply Rinv_0_lt_compat; auto).
  unfold F. split; [|split].
  - intros x. rewrite hastings_eval. apply hst_range.
  - intros x H. rewrite hastings_eval.
    assert (5 < (x - barx) / sigx). { apply (Rmult_lt_reg_r sigx); auto. unfold Rdiv. rewrite Rmult_assoc, Rinv_l by lra. lra. }
    unfold hst. rdec. auto.
  - intros x y H1 H2. rewrite !hastings_eval. apply hst_mono.
    + apply (Rmult_le_reg_r sigx); auto. unfold Rdiv. rewrite Rmult_assoc, Rinv_l by lra. lra.
    + unfold Rdiv. apply Rmult_le_compat_r; lra.
Qed.

(** ** Exponentially spaced points *)

Lemma C46_proof : forall (lower upper : R) (nsamp : nat), lower < upper -> (2 <= nsamp)%nat ->
  let pts := @exp_spaced_points ROps lower upper nsamp in
  length pts = nsamp /\ nth_error pts 0 = Some lower /\ nth_error pts (nsamp - 1) = Some upper /\
  (forall i x, nth_error pts i = Some x ->
     exp x = exp lower + INR i * ((exp upper - exp lower) / (INR nsamp - 1))) /\
  (forall i x y, nth_error pts i = Some x -> nth_error pts (i + 1) = Some y -> x < y).
Proof.
  intros lower upper nsamp LU NS pts.
  assert (EL := exp_increasing _ _ LU). assert (PL := exp_pos lower).
  assert (NR : 2 <= INR nsamp). { replace 2 with (INR 2) by (simpl; lra). apply le_INR. auto. }
  set (st := (exp upper - exp lower) / (INR nsamp - 1)).
  assert (SP : 0 < st) by (unfold st; apply Rdiv_lt_0_compat; lra).
  assert (AL : @arange_len ROps 0 (INR nsamp - 1) 1 = (nsamp - 1)%nat).
  { apply arange_len_eq; [lra| |].
    - intros k Hk. assert (H : INR (S k) <= INR (nsamp - 1)) by (apply le_INR; lia).
      rewrite minus_INR, S_INR in H by lia. simpl in H. lra.
    - rewrite minus_INR by lia. simpl. lra. }
  assert (EP : pts = map (fun i => ln (exp lower + INR i * st)) (seq 0 nsamp)).
  { unfold pts, exp_spaced_points. rewrite ofnat_R. rops. unfold arange. rops. rewrite AL, map_map, map_app.
    replace (seq 0 nsamp) with (seq 0 (nsamp - 1) ++ [(nsamp - 1)%nat]).
    2: { replace nsamp with ((nsamp - 1) + 1)%nat at 3 by lia. rewrite seq_app. reflexivity. }
    rewrite map_app, map_map. f_equal.
    - apply map_ext. intros i. rewrite arange_at_R. f_equal. fold st. ring.
    - cbn [map]. f_equal. f_equal. rewrite minus_INR by lia. simpl (INR 1). unfold st. field. lra. }
  assert (NT : forall i, (i < nsamp)%nat -> nth_error pts i = Some (ln (exp lower + INR i * st))).
  { intros i Hi. rewrite EP, nth_error_map, nth_error_seq by auto. reflexivity. }
  assert (LP : length pts = nsamp) by (rewrite EP, map_length, seq_length; auto).
  assert (INV : forall i x, nth_error pts i = Some x -> (i < nsamp)%nat /\ x = ln (exp lower + INR i * st)).
  { intros i x H. assert (Hi := nth_error_lt _ _ _ _ H). rewrite LP in Hi. rewrite NT in H by auto.
    split; auto. congruence. }
  split; auto. split; [|split; [|split]].
  - rewrite NT by lia. f_equal. simpl INR. rewrite Rmult_0_l, Rplus_0_r. apply ln_exp.
  - rewrite NT by lia. f_equal. rewrite minus_INR by lia. simpl (INR 1).
    replace (exp lower + (INR nsamp - 1) * st) with (exp upper) by (unfold st; field; lra). apply ln_exp.
  - intros i x H. apply INV in H. destruct H as [Hi ->]. rewrite exp_ln; auto.
    assert (Q := pos_INR i). nra.
  - intros i x y H1 H2. apply INV in H1, H2. destruct H1 as [_ ->], H2 as [_ ->].
    assert (Q := pos_INR i). apply ln_increasing. nra. rewrite plus_INR. simpl. nra.
Qed.
