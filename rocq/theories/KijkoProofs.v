(** Proofs about the Kijko estimator of maximum_magnitude.py (C47, C48, C51, C77, C78). *)
From Coq Require Import String ZArith Arith Bool List Lia Reals Lra Permutation Sorted.
From Verif Require Import Base Ops BaseFacts RFacts SteppSpec MaxMag SteppProofs GeoProofs MaxMagProofs.
Import ListNotations.
Local Open Scope R_scope.

(** ** Trapezoidal rule *)

(** Trapezoidal rule for the points (x_i, y_i). *)
Fixpoint trapezoid (xs ys : list R) : R :=
  match xs, ys with
  | x0 :: ((x1 :: _) as xs'), y0 :: ((y1 :: _) as ys') => (y0 + y1) / 2 * (x1 - x0) + trapezoid xs' ys'
  | _, _ => 0
  end.

Lemma integ_from_trap : forall mval cdf acc prev m c, length mval = length cdf ->
  @integ_from ROps acc prev (m :: mval) (c :: cdf)
  + 5 / 10 * nth (length mval) (c :: cdf) 0
    * (nth (S (length mval)) (prev :: m :: mval) 0 - nth (length mval) (prev :: m :: mval) 0)
  = acc + 5 / 10 * c * (m - prev) + trapezoid (m :: mval) (c :: cdf).
Proof.
  induction mval as [|m' mval IH]; intros [|c' cdf] acc prev m c L; try discriminate L.
  - simpl. lra.
  - cbn [integ_from]. unfold lit. rops. injection L. intros L'.
    cbn [length]. 
    change (nth (S (length mval)) (c :: c' :: cdf) 0) with (nth (length mval) (c' :: cdf) 0).
    change (nth (S (S (length mval))) (prev :: m :: m' :: mval) 0) with (nth (S (length mval)) (m :: m' :: mval) 0).
    change (nth (S (length mval)) (prev :: m :: m' :: mval) 0) with (nth (length mval) (m :: m' :: mval) 0).
    assert (E := IH cdf (acc + 5 / 10 * c * (m' - prev)) m m' c' L').
    etransitivity; [exact E|]. cbn [trapezoid]. lra.
Qed.

Lemma integrate_trapezoid : forall mval cdf, length mval = length cdf -> (2 <= length mval)%nat ->
  @integrate ROps mval cdf = Ok (trapezoid mval cdf).
Proof.
  intros [|m0 [|m1 mval]] [|c0 [|c1 cdf]] L H; simpl in L, H; try lia.
  unfold integrate. f_equal. unfold lit. rops.
  injection L. intros L'.
  assert (E := integ_from_trap mval cdf (5 / 10 * c0 * (m1 - m0)) m0 m1 c1 L').
  cbn [length]. rewrite Nat.sub_succ, Nat.sub_0_r. 
  replace (S (S (length mval)) - 2)%nat with (length mval) by lia.
  change (nth (S (length mval)) (c0 :: c1 :: cdf) 0) with (nth (length mval) (c1 :: cdf) 0).
  rops. rewrite E. cbn [trapezoid]. lra.
Qed.

Definition increasing (xs : list R) : Prop :=
  forall i x y, nth_error xs i = Some x -> nth_error xs (i + 1) = Some y -> x <= y.

Lemma trapezoid_bounds : forall xs ys, length xs = length ys -> increasing xs ->
  (forall y, In y ys -> 0 <= y <= 1) -> forall a b, nth_error xs 0 = Some a ->
  nth_error xs (length xs - 1) = Some b -> 0 <= trapezoid xs ys <= b - a.
Proof.
  induction xs as [|x0 [|x1 xs] IH]; intros [|y0 [|y1 ys]] L I B a b Ha Hb; try discriminate.
  - simpl in Ha, Hb. injection Ha. injection Hb. intros -> ->. simpl. lra.
  - simpl in Ha. injection Ha. intros <-.
    assert (I' : increasing (x1 :: xs)). { intros i x y H1 H2. apply (I (S i)); auto. }
    destruct (IH (y1 :: ys) ltac:(simpl in *; lia) I' ltac:(simpl in *; auto) x1 b) as [P Q]; auto.
    { rewrite <- Hb. simpl. rewrite Nat.sub_0_r. reflexivity. }
    assert (x0 <= x1) by (apply (I 0%nat); auto).
    assert (0 <= y0 <= 1) by (apply B; simpl; auto). assert (0 <= y1 <= 1) by (apply B; simpl; auto).
    assert (R1 : 0 <= (y0 + y1) / 2 * (x1 - x0) <= x1 - x0).
    { split. apply Rmult_le_pos; lra. rewrite <- (Rmult_1_l (x1 - x0)) at 2. apply Rmult_le_compat_r; lra. }
    set (t := trapezoid (x1 :: xs) (y1 :: ys)) in *.
    change (0 <= (y0 + y1) / 2 * (x1 - x0) + t <= b - x0). lra.
Qed.

Lemma C48_bound_proof : forall (mval cdf : list R) a b, length mval = length cdf ->
  (2 <= length mval)%nat -> increasing mval -> (forall c, In c cdf -> 0 <= c <= 1) ->
  nth_error mval 0 = Some a -> nth_error mval (length mval - 1) = Some b ->
  exists d, @integrate ROps mval cdf = Ok d /\ d = trapezoid mval cdf /\ 0 <= d <= b - a.
Proof.
  intros mval cdf a b L H I B Ha Hb. exists (trapezoid mval cdf).
  split. { apply integrate_trapezoid; auto. } split; auto. apply trapezoid_bounds; auto.
Qed.

(** ** The loop *)

Lemma kijko_loop_total : forall (delta_of : R -> res R) obsmax tol maxit fuel d_t mmax delta j,
  (forall m, exists d, delta_of m = Ok d) -> 0 <= tol ->
  (j <= maxit)%nat -> (maxit + 1 - j <= fuel)%nat ->
  exists m' d' j', @kijko_loop ROps fuel delta_of obsmax tol maxit d_t mmax delta j = Ok (m', d', j') /\
    (j' <= maxit + 1)%nat /\
    ((d_t <= tol /\ m' = mmax /\ d' = delta /\ j' = j) \/
     (tol < d_t /\ exists prev d, delta_of prev = Ok d /\ d' = Some d /\ m' = obsmax + d /\
        (Rabs (m' - prev) <= tol \/ j' = (maxit + 1)%nat))).
Proof.
  intros delta_of obsmax tol maxit. induction fuel; intros d_t mmax delta j DO HT HJ HF; [lia|].
  cbn [kijko_loop]. rops. destruct (Rltb tol d_t) eqn:E.
  - apply Rltb_true in E. destruct (DO mmax) as [d Hd]. rewrite Hd. cbn [bind].
    destruct (Nat.ltb maxit (S j)) eqn:EJ.
    + apply Nat.ltb_lt in EJ.
      assert (X : forall dd jj m, @kijko_loop ROps fuel delta_of obsmax tol maxit (5 / 10 * tol) m dd jj = Ok (m, dd, jj)).
      { intros. destruct fuel; cbn [kijko_loop]; rops; rdec; reflexivity. }
      unfold lit. rops. rewrite X. do 3 eexists. split; [reflexivity|]. split; [lia|]. right. split; auto.
      exists mmax, d. repeat split; auto. right. lia.
    + apply Nat.ltb_ge in EJ.
      destruct (IHfuel (Rabs (obsmax + d - mmax)) (obsmax + d) (Some d) (S j) DO HT EJ ltac:(lia)) as (m' & d' & j' & H1 & H2 & H3).
      exists m', d', j'. split; auto. split; auto. right. split; auto.
      destruct H3 as [(A & -> & -> & ->)|(A & prev & dd & B)].
      * exists mmax, d. repeat split; auto.
      * exists prev, dd. auto.
  - apply Rltb_false in E. exists mmax, delta, j. split; [reflexivity|]. split; [lia|]. left. auto.
Qed.

(** The last iterate satisfies what all increments from admissible iterates satisfy. *)
Lemma kijko_loop_inv : forall (Q : R -> Prop) (delta_of : R -> res R) obsmax tol maxit fuel d_t mmax delta j m' d' j',
  Q mmax -> (forall m d, Q m -> delta_of m = Ok d -> Q (obsmax + d)) ->
  @kijko_loop ROps fuel delta_of obsmax tol maxit d_t mmax delta j = Ok (m', d', j') -> Q m'.
Proof.
  intros Q delta_of obsmax tol maxit. induction fuel; intros d_t mmax delta j m' d' j' H0 HS H; cbn [kijko_loop] in H; rops.
  - destruct (Rltb tol d_t); [discriminate|]. congruence.
  - destruct (Rltb tol d_t); [|congruence]. apply bind_ok in H. destruct H as [d [Hd H]].
    eapply IHfuel; [| |exact H]; eauto.
Qed.

(** The increment is defined for every current maximum. *)
Lemma exp_points_length : forall (lower upper : R) nsamp, (2 <= nsamp)%nat ->
  length (@exp_spaced_points ROps lower upper nsamp) = nsamp.
Proof.
  intros lower upper nsamp H. unfold exp_spaced_points. rewrite map_length, app_length, map_length.
  rewrite ofnat_R. rops. rewrite arange_length. cbn [length].
  assert (AL : @arange_len ROps 0 (INR nsamp - 1) 1 = (nsamp - 1)%nat).
  { apply arange_len_eq; [lra| |].
    - intros k Hk. assert (L : INR (S k) <= INR (nsamp - 1)) by (apply le_INR; lia).
      rewrite minus_INR, S_INR in L by lia. simpl in L. lra.
    - rewrite minus_INR by lia. simpl. lra. }
  rops. rewrite AL. lia.
Qed.

Lemma kijko_delta_ok : forall mmin nsamp (mag : list R) h neq mmax, (2 <= nsamp)%nat ->
  exists d, @kijko_delta ROps mmin nsamp mag h neq mmax = Ok d.
Proof.
  intros mmin nsamp mag h neq mmax H. unfold kijko_delta, kijko_npg_intfunc_simps.
  assert (L := exp_points_length mmin mmax nsamp H).
  set (pts := @exp_spaced_points ROps mmin mmax nsamp) in *.
  assert (NE : pts <> []) by (destruct pts; simpl in L; [lia|discriminate]).
  destruct (minv_ok pts NE) as [lo E1]. destruct (maxv_ok pts NE) as [hi E2].
  rops. rewrite E1, E2. cbn [bind]. rewrite integrate_trapezoid. eauto. rewrite map_length. auto. eapply Nat.le_trans; [exact H|]. rewrite <- L. apply Nat.le_refl.
Qed.

(** ** Observed maximum and selection *)

(** (om, os) is the largest magnitude and the uncertainty of its first occurrence. *)
Definition first_max (mag sig : list R) (om os : R) : Prop :=
  exists i, nth_error mag i = Some om /\ nth_error sig i = Some os /\
    (forall x, In x mag -> x <= om) /\ (forall k x, (k < i)%nat -> nth_error mag k = Some x -> x < om).

Lemma argmax_spec : forall (mag sig : list R) b bs om os, length mag = length sig ->
  @argmax_from ROps b bs mag sig = (om, os) -> first_max (b :: mag) (bs :: sig) om os.
Proof.
  induction mag as [|m mag IH]; intros [|s sig] b bs om os L H; try discriminate L.
  - simpl in H. injection H. intros <- <-. exists 0%nat. repeat split; auto.
    intros x [->|[]]. lra. intros. lia.
  - cbn [argmax_from] in H. rops. injection L. intros L'. destruct (Rltb b m) eqn:E.
    + apply Rltb_true in E. destruct (IH sig m s om os L' H) as (i & I1 & I2 & I3 & I4).
      assert (m <= om) by (apply I3; simpl; auto).
      exists (S i). repeat split; auto.
      * intros x [<-|I]; [lra|auto].
      * intros [|k] x Hk Hx; simpl in Hx. injection Hx. intros <-. lra. apply (I4 k x); auto. lia.
    + apply Rltb_false in E. destruct (IH sig b bs om os L' H) as (i & I1 & I2 & I3 & I4).
      assert (b <= om) by (apply I3; simpl; auto).
      destruct i as [|i].
      * exists 0%nat. repeat split; auto. { intros x [<-|[<-|I]]; [lra|lra|apply I3; simpl; auto]. }
        intros; lia.
      * exists (S (S i)). repeat split; auto.
        -- intros x [<-|[<-|I]]; [lra| |apply I3; simpl; auto]. lra.
        -- assert (b < om) by (apply (I4 0%nat); simpl; auto; lia).
           intros [|[|k]] x Hk Hx; simpl in Hx; try (injection Hx; intros <-; lra).
           apply (I4 (S k) x); auto. lia.
Qed.

Lemma insert_perm : forall x l, Permutation (x :: l) (@insert ROps x l).
Proof.
  induction l as [|y l IH]; cbn [insert]; auto. destruct (leb x y); auto.
  rewrite perm_swap. constructor. auto.
Qed.
Lemma sortv_perm : forall l, Permutation l (@sortv ROps l).
Proof. induction l; cbn [sortv]; auto. rewrite <- insert_perm. constructor. auto. Qed.

Lemma insert_sorted : forall x l, StronglySorted Rle l -> StronglySorted Rle (@insert ROps x l).
Proof.
  induction l as [|y l IH]; intros H; cbn [insert].
  - constructor. constructor. constructor.
  - rops. inversion H; subst. destruct (Rleb x y) eqn:E.
    + apply Rleb_true in E. constructor; auto. constructor; auto.
      eapply Forall_impl; [|exact H3]. intros z Hz. simpl in Hz. lra.
    + apply Rleb_false in E. constructor; auto. rewrite Forall_forall in *. intros z Hz.
      apply (Permutation_in z (Permutation_sym (insert_perm x l))) in Hz. destruct Hz as [<-|Hz]; [lra|auto].
Qed.
Lemma sortv_sorted : forall l, StronglySorted Rle (@sortv ROps l).
Proof. induction l; cbn [sortv]. constructor. apply insert_sorted. auto. Qed.

Lemma sorted_unique : forall l m : list R, StronglySorted Rle l -> StronglySorted Rle m -> Permutation l m -> l = m.
Proof.
  induction l as [|a l IH]; intros m Hl Hm P.
  - apply Permutation_nil in P. auto.
  - destruct m as [|b m]. { symmetry in P. apply Permutation_nil in P. discriminate. }
    inversion Hl; inversion Hm; subst. rewrite Forall_forall in *.
    assert (a = b).
    { assert (In b (a :: l)) by (eapply Permutation_in; [symmetry; eauto|simpl; auto]).
      assert (In a (b :: m)) by (eapply Permutation_in; [eauto|simpl; auto]).
      simpl in *. destruct H as [->|H]; auto. destruct H0 as [->|H0]; auto.
      specialize (H2 b H). specialize (H6 a H0). lra. }
    subst. f_equal. apply IH; auto. eapply Permutation_cons_inv; eauto.
Qed.
Lemma sortv_perm_eq : forall l m, Permutation l m -> @sortv ROps l = @sortv ROps m.
Proof.
  intros l m P. apply sorted_unique; try apply sortv_sorted.
  rewrite <- !sortv_perm. auto.
Qed.

Lemma sorted_split : forall k (l : list R), StronglySorted Rle l ->
  forall x y, In x (firstn k l) -> In y (skipn k l) -> x <= y.
Proof.
  induction k; intros [|a l] H x y Hx Hy; simpl in *; try contradiction.
  inversion H; subst. rewrite Forall_forall in *. destruct Hx as [<-|Hx].
  - apply H3. rewrite <- (firstn_skipn k l). apply in_or_app. auto.
  - eapply IHk; eauto.
Qed.

Lemma C78_proof : forall (mag : list R) neq sel n, (0 < neq)%nat -> @largest ROps mag neq = (sel, n) ->
  n = length sel /\ n = Nat.min neq (length mag) /\
  exists rest, Permutation mag (rest ++ sel) /\ forall x y, In x rest -> In y sel -> x <= y.
Proof.
  intros mag neq sel n HN H. unfold largest in H. rops. destruct (Nat.leb (length mag) neq) eqn:E.
  - apply Nat.leb_le in E. injection H. intros <- <-. split; auto. split; [lia|].
    exists []. simpl. split; auto. intros x y [].
  - apply Nat.leb_gt in E. destruct neq as [|neq]; [lia|]. injection H. intros <- <-.
    assert (LS : length (@sortv ROps mag) = length mag) by (symmetry; apply Permutation_length, sortv_perm).
    split. { rewrite skipn_length. rops. lia. }
    split; [lia|]. exists (firstn (length (@sortv ROps mag) - S neq) (@sortv ROps mag)).
    rewrite firstn_skipn. split. apply sortv_perm. apply sorted_split. apply sortv_sorted.
Qed.

Lemma largest_ne : forall (mag : list R) neq sel n, mag <> [] -> @largest ROps mag neq = (sel, n) -> sel <> [].
Proof.
  intros mag neq sel n NE H. unfold largest in H. rops. destruct (Nat.leb (length mag) neq) eqn:E.
  - injection H. intros. congruence.
  - apply Nat.leb_gt in E.
    assert (LS : length (@sortv ROps mag) = length mag) by (symmetry; apply Permutation_length, sortv_perm).
    assert (length sel <> 0)%nat; [|destruct sel; simpl in *; congruence].
    injection H. intros _ <-. assert (0 < length mag)%nat by (destruct mag; simpl; [congruence|lia]). rops. destruct neq. lia.
    rewrite skipn_length. rops. lia.
Qed.

Lemma kijko_parts : forall fuel (mag sig : list R) neq nsamp tol maxit (mo : option (R * R)),
  mag <> [] -> length mag = length sig -> (2 <= nsamp)%nat -> 0 <= tol < 100000000 -> (maxit + 1 <= fuel)%nat ->
  exists om os sel n mmin prev d mmax sigma j,
    (match mo with Some p => p = (om, os) | None => first_max mag sig om os end) /\
    @largest ROps mag neq = (sel, n) /\ is_min mmin sel /\
    @kijko_loop ROps fuel (@kijko_delta ROps mmin nsamp sel (@h_smooth ROps sel) n) om tol maxit 100000000 om None 0
      = Ok (mmax, Some d, j) /\
    @kijko_nonparametric_gauss ROps fuel mag sig neq nsamp tol maxit mo = Ok (mmax, sigma) /\
    @kijko_delta ROps mmin nsamp sel (@h_smooth ROps sel) n prev = Ok d /\
    mmax = om + d /\ sigma = sqrt (os * os + d * d) /\
    (Rabs (mmax - prev) <= tol \/ j = (maxit + 1)%nat).
Proof.
  intros fuel mag sig neq nsamp tol maxit mo NE L NS HT HF.
  assert (OM : exists om os, @observed_max ROps mag sig mo = Ok (om, os) /\
    match mo with Some p => p = (om, os) | None => first_max mag sig om os end).
  { destruct mo as [[om os]|]. exists om, os. auto.
    destruct mag as [|m mag]; [congruence|]. destruct sig as [|s sig]; [discriminate|].
    cbn [observed_max]. rops. destruct (@argmax_from ROps m s mag sig) as [om os] eqn:E. exists om, os. split; auto.
    apply argmax_spec; auto. }
  destruct OM as (om & os & OM & OMS).
  destruct (@largest ROps mag neq) as [sel n] eqn:EL.
  assert (SN := largest_ne mag neq sel n NE EL).
  destruct (minv_ok sel SN) as [mmin EM].
  destruct (kijko_loop_total (@kijko_delta ROps mmin nsamp sel (@h_smooth ROps sel) n) om tol maxit fuel 100000000 om None 0)
    as (mmax & d' & j & LP & LJ & [(A & _)|(A & prev & d & D1 & D2 & D3 & D4)]);
    try lia; try lra.
  { intros m. apply kijko_delta_ok. auto. }
  subst d'.
  exists om, os, sel, n, mmin, prev, d, mmax, (sqrt (os * os + d * d)), j.
  split; auto. split; auto. split. { apply minv_spec. auto. } split; auto.
  split; [|split; auto].
  unfold kijko_nonparametric_gauss. rops. rewrite OM. cbn [bind]. rewrite EL. rewrite EM. cbn [bind].
  rewrite LP. cbn [bind]. reflexivity.
Qed.

Lemma kijko_loop_passes : forall (delta_of : R -> res R) obsmax tol maxit fuel2 fuel d_t mmax delta j m' d' j',
  @kijko_loop ROps fuel delta_of obsmax tol maxit d_t mmax delta j = Ok (m', d', j') ->
  (fuel2 < j' - j)%nat ->
  @kijko_loop ROps fuel2 delta_of obsmax tol maxit d_t mmax delta j = Err OutOfFuel.
Proof.
  intros delta_of obsmax tol maxit. induction fuel2; intros fuel d_t mmax delta j m' d' j' H L.
  - cbn [kijko_loop]. rops. destruct (Rltb tol d_t) eqn:E; auto. exfalso.
    destruct fuel; cbn [kijko_loop] in H; rops; rewrite E in H; injection H; intros; lia.
  - cbn [kijko_loop]. rops. destruct fuel; cbn [kijko_loop] in H; rops.
    + destruct (Rltb tol d_t); [discriminate|]. exfalso. injection H; intros; lia.
    + destruct (Rltb tol d_t). 2: { exfalso. injection H; intros; lia. }
      apply bind_ok in H. destruct H as [d [Hd H]]. rewrite Hd. cbn [bind].
      eapply IHfuel2; [exact H|lia].
Qed.

Lemma C47_proof : forall fuel (mag sig : list R) neq nsamp tol maxit (mo : option (R * R)),
  mag <> [] -> length mag = length sig -> (2 <= nsamp)%nat -> 0 <= tol < 100000000 -> (maxit + 1 <= fuel)%nat ->
  exists om os sel n mmin prev d mmax sigma,
    (match mo with Some p => p = (om, os) | None => first_max mag sig om os end) /\
    @largest ROps mag neq = (sel, n) /\ is_min mmin sel /\
    @kijko_nonparametric_gauss ROps fuel mag sig neq nsamp tol maxit mo = Ok (mmax, sigma) /\
    @kijko_npg_intfunc_simps ROps (@exp_spaced_points ROps mmin prev nsamp) sel (@h_smooth ROps sel) n = Ok d /\
    mmax = om + d /\ sigma = sqrt (os * os + d * d) /\
    (Rabs (mmax - prev) <= tol \/
     @kijko_nonparametric_gauss ROps maxit mag sig neq nsamp tol maxit mo = Err OutOfFuel).
Proof.
  intros fuel mag sig neq nsamp tol maxit mo NE L NS HT HF.
  destruct (kijko_parts fuel mag sig neq nsamp tol maxit mo NE L NS HT HF)
    as (om & os & sel & n & mmin & prev & d & mmax & sigma & j & P1 & P2 & P3 & P4 & P5 & P6 & P7 & P8 & P9).
  exists om, os, sel, n, mmin, prev, d, mmax, sigma.
  split; auto. split; auto. split; auto. split; auto. split; auto. split; auto. split; auto.
  destruct P9 as [P9|P9]; auto. right. subst j.
  assert (X := kijko_loop_passes _ _ _ _ maxit _ _ _ _ _ _ _ _ P4 ltac:(lia)).
  assert (OM : @observed_max ROps mag sig mo = Ok (om, os)).
  { destruct mo as [[a b]|]. cbn [observed_max]. rewrite P1. reflexivity.
    destruct mag as [|m mag]; [congruence|]. destruct sig as [|s sig]; [discriminate|].
    cbn [observed_max]. destruct (@argmax_from ROps m s mag sig) as [a b] eqn:E.
    apply argmax_spec in E; auto. f_equal.
    destruct P1 as (i & A1 & A2 & A3 & A4), E as (i' & B1 & B2 & B3 & B4).
    assert (a = om). { apply nth_error_In in A1 as I1. apply nth_error_In in B1 as I2. specialize (A3 _ I2). specialize (B3 _ I1). rops. lra. }
    subst a.
    assert (i = i'). { destruct (Nat.lt_total i i') as [Y|[Y|Y]]; auto; exfalso.
      specialize (B4 i om Y A1). lra. specialize (A4 i' om Y B1). lra. }
    subst i'. assert (X2 : Some os = Some b) by (etransitivity; [symmetry; exact A2|exact B2]). injection X2. intros ->. reflexivity. }
  unfold kijko_nonparametric_gauss. rops. rewrite OM. cbn [bind]. rewrite P2.
  apply minv_spec in P3. rops. rewrite P3. cbn [bind]. rewrite X. reflexivity.
Qed.

(** ** Distribution values *)

Lemma hst_strict : forall x y, -5 <= x < 5 -> x < y -> hst x < hst y.
Proof.
  intros x y Hx H. destruct (Rle_dec y 5) as [Hy|Hy].
  - assert (C := C44_proof 0 1 Rlt_0_1). cbv zeta in C. destruct C as (_ & _ & _ & C).
    specialize (C x y ltac:(lra) H ltac:(lra)). rewrite !hastings_eval in C.
    replace ((x - 0) / 1) with x in C by field. replace ((y - 0) / 1) with y in C by field. auto.
  - unfold hst at 2. rdec. unfold hst. rdec. destruct (Rltb x 0) eqn:E.
    + apply Rltb_true in E. assert (Q := hup_range (- x)). lra.
    + apply Rltb_false in E. assert (Q := hup_range x). lra.
Qed.

Lemma gauss_vec : forall t h (mag : list R),
  @gauss_cdf_hastings ROps (map (fun m => (t - m) / h) mag) = map (fun m => hst ((t - m) / h)) mag.
Proof.
  intros. unfold gauss_cdf_hastings. rewrite map_map. apply map_ext. intros m. rewrite hastings_eval. rops.
  f_equal. set (u := (t - m) / h). field.
Qed.

Lemma pown_R : forall (x : R) n, @pown ROps x n = x ^ n.
Proof. induction n; cbn [pown pow]; rops; [auto|]. rewrite IHn. auto.  Qed.

Lemma map2_map_map : forall A B C D (f : B -> C -> D) (g : A -> B) (h : A -> C) l,
  map2 f (map g l) (map h l) = map (fun a => f (g a) (h a)) l.
Proof. induction l; simpl; auto. rewrite IHl. auto. Qed.

Lemma kijko_cdf_eval : forall mmin mmax (mag : list R) h n t,
  @kijko_cdf ROps mmin mmax mag h n t
  = (Rsum (map (fun m => hst ((t - m) / h) - hst ((mmin - m) / h)) mag)
     / Rsum (map (fun m => hst ((mmax - m) / h) - hst ((mmin - m) / h)) mag)) ^ n.
Proof.
  intros. unfold kijko_cdf. rewrite pown_R, !sumv_R. rops. rewrite !gauss_vec, !map2_map_map. reflexivity.
Qed.

Lemma kijko_cdf_range : forall mmin mmax (mag : list R) h n t, 0 < h -> mag <> [] -> mmin < mmax ->
  mmin <= t <= mmax -> (forall m, In m mag -> mmin <= m <= mmin + 5 * h) ->
  0 <= @kijko_cdf ROps mmin mmax mag h n t <= 1.
Proof.
  intros mmin mmax mag h n t Hh NE LM Ht HM. rewrite kijko_cdf_eval.
  assert (IH : 0 < / h) by (apply Rinv_0_lt_compat; auto).
  assert (Z : forall m, In m mag -> -5 <= (mmin - m) / h <= 0).
  { intros m I. specialize (HM m I). split; apply (Rmult_le_reg_r h); auto; unfold Rdiv; rewrite Rmult_assoc, Rinv_l by lra; lra. }
  assert (MN : forall x y m, x <= y -> (x - m) / h <= (y - m) / h).
  { intros. unfold Rdiv. apply Rmult_le_compat_r; lra. }
  assert (D : 0 < Rsum (map (fun m => hst ((mmax - m) / h) - hst ((mmin - m) / h)) mag)).
  { apply Rsum_pos.
    - intros x Hx. apply in_map_iff in Hx. destruct Hx as [m [<- I]]. specialize (Z m I).
      assert (hst ((mmin - m) / h) < hst ((mmax - m) / h)); [|lra]. apply hst_strict. lra.
      unfold Rdiv. apply Rmult_lt_compat_r; lra.
    - destruct mag; simpl; congruence. }
  assert (N0 : 0 <= Rsum (map (fun m => hst ((t - m) / h) - hst ((mmin - m) / h)) mag)).
  { apply Rsum_nonneg. intros x Hx. apply in_map_iff in Hx. destruct Hx as [m [<- I]]. specialize (Z m I).
    assert (hst ((mmin - m) / h) <= hst ((t - m) / h)); [|lra]. apply hst_mono. lra. apply MN. lra. }
  assert (N1 : Rsum (map (fun m => hst ((t - m) / h) - hst ((mmin - m) / h)) mag)
     <= Rsum (map (fun m => hst ((mmax - m) / h) - hst ((mmin - m) / h)) mag)).
  { apply Rsum_le. intros m I. specialize (Z m I).
    assert (hst ((t - m) / h) <= hst ((mmax - m) / h)); [|lra]. apply hst_mono.
    assert (X := MN mmin t m). lra. apply MN. lra. }
  set (a := Rsum (map (fun m => hst ((t - m) / h) - hst ((mmin - m) / h)) mag)) in *.
  set (b := Rsum (map (fun m => hst ((mmax - m) / h) - hst ((mmin - m) / h)) mag)) in *.
  assert (Q : 0 <= a / b <= 1).
  { split. apply Rmult_le_pos; auto. left. apply Rinv_0_lt_compat. auto.
    apply (Rmult_le_reg_r b); auto. unfold Rdiv. rewrite Rmult_assoc, Rinv_l by lra. lra. }
  split. apply pow_le. lra.
  rewrite <- (pow1 n). apply pow_incr. lra.
Qed.

Lemma kijko_delta_range : forall mmin nsamp (mag : list R) h n mmax d, (2 <= nsamp)%nat -> 0 < h -> mag <> [] ->
  mmin < mmax -> (forall m, In m mag -> mmin <= m <= mmin + 5 * h) ->
  @kijko_delta ROps mmin nsamp mag h n mmax = Ok d -> 0 <= d <= mmax - mmin.
Proof.
  intros mmin nsamp mag h n mmax d NS Hh NE LM HM H. unfold kijko_delta, kijko_npg_intfunc_simps in H.
  destruct (C46_proof mmin mmax nsamp LM NS) as (L & F & LA & EX & INC).
  set (pts := @exp_spaced_points ROps mmin mmax nsamp) in *.
  assert (IN : forall x, In x pts -> mmin <= x <= mmax).
  { intros x I. apply In_nth_error in I. destruct I as [i Hi].
    assert (Li := nth_error_lt _ _ _ _ Hi). rewrite L in Li. assert (E := EX i x Hi).
    assert (NR : 2 <= INR nsamp). { replace 2 with (INR 2) by (simpl; lra). apply le_INR. auto. }
    assert (Q := pos_INR i). assert (Q1 : INR i <= INR nsamp - 1).
    { assert (INR (S i) <= INR nsamp) by (apply le_INR; lia). rewrite S_INR in H0. lra. }
    assert (EL := exp_increasing _ _ LM).
    set (st := (exp mmax - exp mmin) / (INR nsamp - 1)) in *.
    assert (SP : 0 < st) by (unfold st; apply Rdiv_lt_0_compat; lra).
    assert (ET : exp mmax = exp mmin + (INR nsamp - 1) * st) by (unfold st; field; lra).
    split.
    - destruct (Rle_dec mmin x); auto. exfalso. assert (x < mmin) by lra. apply exp_increasing in H0. nra.
    - destruct (Rle_dec x mmax); auto. exfalso. assert (mmax < x) by lra. apply exp_increasing in H0. nra. }
  apply bind_ok in H. destruct H as [lo [E1 H]]. apply bind_ok in H. destruct H as [hi [E2 H]].
  apply minv_spec in E1. apply maxv_spec in E2.
  assert (lo = mmin).
  { destruct E1 as [I1 I2]. assert (lo <= mmin) by (apply I2; eapply nth_error_In; eauto). specialize (IN lo I1). rops. lra. }
  assert (hi = mmax).
  { destruct E2 as [I1 I2]. assert (mmax <= hi) by (apply I2; eapply nth_error_In; eauto). specialize (IN hi I1). rops. lra. }
  subst lo hi.
  destruct (C48_bound_proof pts (map (@kijko_cdf ROps mmin mmax mag h n) pts) mmin mmax) as (d' & D1 & D2 & D3).
  - rewrite map_length. auto.
  - eapply Nat.le_trans; [exact NS|]. rewrite <- L. apply Nat.le_refl.
  - intros i x y Hx Hy. left. eapply INC; eauto.
  - intros c Hc. apply in_map_iff in Hc. destruct Hc as [t [<- It]]. apply kijko_cdf_range; auto.
  - auto.
  - assert (L2 : @length R pts = nsamp) by exact L. rewrite L2. exact LA.
  - rops. rewrite D1 in H. injection H. intros ->. lra.
Qed.

Lemma C77_proof : forall fuel (mag sig : list R) neq nsamp tol maxit mo sel n mmin om os mmax sigma,
  (2 <= nsamp)%nat -> 0 <= tol < 100000000 -> (maxit + 1 <= fuel)%nat -> mag <> [] -> length mag = length sig ->
  (match mo with Some p => p = (om, os) | None => first_max mag sig om os end) ->
  @largest ROps mag neq = (sel, n) -> is_min mmin sel -> mmin < om -> 0 < @h_smooth ROps sel ->
  (forall m, In m sel -> m <= mmin + 5 * @h_smooth ROps sel) ->
  @kijko_nonparametric_gauss ROps fuel mag sig neq nsamp tol maxit mo = Ok (mmax, sigma) ->
  om <= mmax /\ os <= sigma.
Proof.
  intros fuel mag sig neq nsamp tol maxit mo sel n mmin om os mmax sigma NS HT HF NE L HO HL HM HL2 Hh HR H.
  destruct (kijko_parts fuel mag sig neq nsamp tol maxit mo NE L NS HT HF)
    as (om' & os' & sel' & n' & mmin' & prev & d & mmax' & sigma' & j & P1 & P2 & P3 & P4 & P5 & P6 & P7 & P8 & P9).
  rewrite HL in P2. injection P2. intros <- <-. clear P2.
  assert (mmin' = mmin).
  { destruct HM as [M1 M2], P3 as [M3 M4]. specialize (M2 _ M3). specialize (M4 _ M1). rops. lra. }
  subst mmin'.
  assert (om' = om /\ os' = os).
  { destruct mo. split; congruence. destruct HO as (i & A1 & A2 & A3 & A4), P1 as (i' & B1 & B2 & B3 & B4).
    assert (om' = om). { apply nth_error_In in A1 as I1. apply nth_error_In in B1 as I2. specialize (A3 _ I2). specialize (B3 _ I1). lra. }
    subst om'. split; auto.
    assert (i = i'). { destruct (Nat.lt_total i i') as [X|[X|X]]; auto; exfalso.
      specialize (B4 i om X A1). lra. specialize (A4 i' om X B1). lra. }
    congruence. }
  destruct H0 as [-> ->]. rops. rewrite H in P5. injection P5. intros <- <-. clear P5.
  assert (SN : sel <> []). { destruct HM as [M1 _]. destruct sel; [destruct M1|discriminate]. }
  assert (A : om <= mmax).
  { apply (kijko_loop_inv (fun m => om <= m) (@kijko_delta ROps mmin nsamp sel (@h_smooth ROps sel) n) om tol maxit fuel 100000000 om None 0 mmax (Some d) j); auto.
    - lra.
    - intros m dd Hm Hd. assert (X := kijko_delta_range mmin nsamp sel (@h_smooth ROps sel) n m dd NS Hh SN ltac:(lra)).
      destruct X as [X _]; auto. { intros z Iz. split; auto. apply HM. auto. } lra. }
  split; auto. rewrite P8.
  destruct (Rle_dec os 0). { apply Rle_trans with 0; auto. apply sqrt_pos. }
  apply Rsqr_incr_0_var. 2: apply sqrt_pos. rewrite Rsqr_sqrt. unfold Rsqr. nra. nra.
Qed.
