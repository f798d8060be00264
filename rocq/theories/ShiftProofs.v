(** Proofs for C111: adding a constant to every magnitude. *)
From Coq Require Import Reals ZArith Bool Arith Lia Lra String List.
From Verif Require Import Base BaseFacts Ops Recurrence RFacts FrameSpec SteppSpec SteppProofs RecurrenceSpec RecurrenceProofs RecurrenceMore OrderProofs
  EpochProofs ShiftSpec.
Import ListNotations.
Local Open Scope R_scope.

(** ** Rounding *)

Lemma Rfloor_plus : forall x z, Rfloor (x + IZR z) = (Rfloor x + z)%Z.
Proof. intros. apply Rfloor_unique. destruct (Rfloor_spec x). rewrite plus_IZR. lra. Qed.
Lemma Rceil_plus : forall x z, Rceil (x + IZR z) = (Rceil x + z)%Z.
Proof. intros. apply Rceil_unique. destruct (Rceil_spec x). rewrite plus_IZR. lra. Qed.
Lemma Rrint_plus : forall x z, Z.even z = true -> Rrint (x + IZR z) = (Rrint x + z)%Z.
Proof.
  intros x z E. unfold Rrint. cbv zeta. rewrite Rfloor_plus, plus_IZR.
  replace (x + IZR z - (IZR (Rfloor x) + IZR z)) with (x - IZR (Rfloor x)) by ring.
  destruct (Rlt_dec _ _); auto. destruct (Rlt_dec _ _); [lia|].
  rewrite Z.even_add, E. destruct (Z.even (Rfloor x)); simpl; lia.
Qed.

Lemma raised_fst : forall c l, map fst (raised c l) = map fst l.
Proof. intros. unfold raised. rewrite map_map. reflexivity. Qed.
Lemma raised_snd : forall c l, map snd (raised c l) = later c (map snd l).
Proof. intros. unfold raised, later. rewrite !map_map. reflexivity. Qed.

Lemma later_nth : forall c (l : list R) k, (k < length l)%nat -> nth k (later c l) 0 = nth k l 0 + c.
Proof.
  intros c l k H. unfold later. rewrite (nth_indep _ 0 (0 + c)) by (now rewrite map_length). apply (map_nth (fun y => y + c)).
Qed.

Lemma Rleb_plus : forall c x y, Rleb (x + c) (y + c) = Rleb x y.
Proof.
  intros. destruct (Rleb x y) eqn:E; [apply Rleb_true in E; apply Rleb_true; lra|apply Rleb_false in E; apply Rleb_false; lra].
Qed.
Lemma Rltb_plus : forall c x y, Rltb (x + c) (y + c) = Rltb x y.
Proof.
  intros. destruct (Rltb x y) eqn:E; [apply Rltb_true in E; apply Rltb_true; lra|apply Rltb_false in E; apply Rltb_false; lra].
Qed.

(** ** Maximum likelihood, by tenths *)
Section Tenths.
Variable z : Z.
Let c := IZR z / 10.

Lemma range_raised : forall (mag : list R) dmag,
  @rec_mag_range ROps (later c mag) dmag
  = match @rec_mag_range ROps mag dmag with Ok r => Ok (later c r) | Err e => Err e end.
Proof.
  intros. unfold rec_mag_range. rops.
  assert (E1 : @map R R (fun m => IZR (Rceil (10 * m)) / 10) (later c mag) = later c (@map R R (fun m => IZR (Rceil (10 * m)) / 10) mag)).
  { unfold later. rewrite !map_map. apply map_ext. intros m.
    replace (10 * (m + c)) with (10 * m + IZR z) by (unfold c; field). rewrite Rceil_plus, plus_IZR. unfold c. field. }
  assert (E2 : @map R R (fun m => IZR (Rfloor (10 * m)) / 10) (later c mag) = later c (@map R R (fun m => IZR (Rfloor (10 * m)) / 10) mag)).
  { unfold later. rewrite !map_map. apply map_ext. intros m.
    replace (10 * (m + c)) with (10 * m + IZR z) by (unfold c; field). rewrite Rfloor_plus, plus_IZR. unfold c. field. }
  rewrite E1, E2, later_maxv, later_minv.
  destruct (@maxv ROps _) as [u|]; cbn [bind]; auto. destruct (@minv ROps _) as [l|]; cbn [bind]; auto. f_equal.
  replace (u + c + 2 * dmag) with (u + 2 * dmag + c) by ring. apply later_arange.
Qed.

Lemma histogram_raised : forall xs edges : list R, @histogram ROps (later c xs) (later c edges) = @histogram ROps xs edges.
Proof.
  intros. unfold histogram. rops. rewrite later_length. apply map_ext_in. intros k K. apply in_seq in K.
  unfold later at 2. rewrite map_map. f_equal. apply map_ext. intros x. apply in_bin_later. lia.
Qed.

Lemma removelast_later : forall l : list R, removelast (later c l) = later c (removelast l).
Proof. induction l as [|a [|b l] IH]; auto. cbn [later map removelast] in *. unfold later in IH. cbn [map] in IH. now rewrite IH. Qed.

Lemma rows_raised : forall (d n : R) (ms : list R) (hs : list (nat * nat)),
  let row := fun (m : R) (nc : nat * nat) => @mkRec ROps m (@ofnat ROps (fst nc)) (@ofnat ROps (snd nc)) (@ofnat ROps (fst nc) / n) (@ofnat ROps (snd nc) / n) in
  map rc_mag (map2 row (map (fun m => m + d) (later c ms)) hs) = later c (map rc_mag (map2 row (map (fun m => m + d) ms) hs)) /\
  map rc_n (map2 row (map (fun m => m + d) (later c ms)) hs) = map rc_n (map2 row (map (fun m => m + d) ms) hs).
Proof.
  intros d n ms hs row. revert hs. induction ms as [|m ms IH]; intros [|h hs]; cbn [later map map2]; auto.
  destruct (IH hs) as (A & B). unfold later in *. split.
  - f_equal; [cbn; ring|]. exact A.
  - f_equal. exact B.
Qed.

Lemma table_raised : forall (mag year : list R) dmag tab, @recurrence_table ROps mag dmag year = Ok tab ->
  exists tab', @recurrence_table ROps (later c mag) dmag year = Ok tab' /\
    map rc_mag tab' = later c (map rc_mag tab) /\ map rc_n tab' = map rc_n tab.
Proof.
  intros mag year dmag tab H. unfold recurrence_table in *. rewrite range_raised. rops.
  destruct (@maxv ROps year) as [ymax|]; cbn [bind] in *; [|discriminate].
  destruct (@minv ROps year) as [ymin|]; cbn [bind] in *; [|discriminate].
  destruct (@rec_mag_range ROps mag dmag) as [r|]; cbn [bind] in *; [|discriminate].
  rewrite removelast_later, histogram_raised.
  eexists. split; [reflexivity|].
  assert (Q : forall X Y : list (@rec_row ROps), Ok X = Ok Y -> X = Y) by congruence. apply Q in H. subst tab.
  apply rows_raised.
Qed.

(** Some event is counted. *)
Lemma some_counted : forall (mag year : list R) dmag m_c m tab, 0 < dmag -> In m mag -> year <> [] -> m_c + dmag / 2 <= m ->
  @recurrence_table ROps mag dmag year = Ok tab ->
  0 < wtotal (filter (fun p => Rleb m_c (fst p)) (combine (map rc_mag tab) (map rc_n tab))).
Proof.
  intros mag year dmag m_c m tab D I Y G H.
  destruct (C35_proof mag year dmag D) as (tab' & lo & fi & la & E & _ & _ & _ & RR & _ & BB); auto.
  { intros ->. destruct I. }
  rewrite H in E. injection E as <-. destruct (BB m I) as (k & K & B & _).
  destruct (nth_error tab k) as [row|] eqn:NE; [|apply nth_error_None in NE; lia].
  destruct (RR k row NE) as (R1 & R2 & _). assert (B0 := B). unfold bin_of in B. apply andb_true_iff in B. destruct B as (B1 & B2).
  apply Rltb_true in B2. rewrite plus_INR in B2. simpl (INR 1) in B2.
  assert (RM : m_c <= rc_mag row) by (rewrite R1; lra).
  assert (RN : 0 < rc_n row).
  { rewrite R2. apply lt_0_INR. clear -I B0. rename B0 into B. unfold count. induction mag as [|x mag IH]; [destruct I|]. destruct I as [->|I]; cbn [map filter].
    - rewrite B. simpl. lia.
    - destruct (bin_of lo dmag k x); simpl; auto; lia. }
  assert (NN : forall r, In r tab -> 0 <= rc_n r).
  { intros r Ir. apply In_nth_error in Ir. destruct Ir as (j & Hj). destruct (RR j r Hj) as (_ & -> & _). apply pos_INR. }
  apply nth_error_In in NE. clear -NE RM RN NN. unfold wtotal. induction tab as [|r tab IH]; [destruct NE|].
  assert (P : 0 <= Rsum (map snd (filter (fun p => Rleb m_c (fst p)) (combine (map rc_mag tab) (map rc_n tab))))).
  { apply Rsum_nonneg. intros x Ix. apply in_map_iff in Ix. destruct Ix as ([a b] & <- & Ix). apply filter_In in Ix. destruct Ix as (Ix & _).
    apply in_combine_r in Ix. apply in_map_iff in Ix. destruct Ix as (q & <- & Iq). apply NN. now right. }
  destruct NE as [->|NE]; cbn [map combine filter fst].
  - replace (Rleb m_c (rc_mag row)) with true by (symmetry; now apply Rleb_true). cbn [map snd Rsum]. apply Rplus_lt_le_0_compat; [exact RN|exact P].
  - specialize (IH NE (fun q Iq => NN q (or_intror Iq))).
    destruct (Rleb m_c (rc_mag r)); cbn [map snd Rsum]; [|exact IH].
    apply Rplus_le_lt_0_compat; [apply NN; now left|exact IH].
Qed.

Definition prel (p p' : @period ROps) : Prop :=
  pd_n p' = pd_n p /\ pd_b p' = pd_b p /\ pd_sb p' = pd_sb p /\ pd_rate p' = pd_rate p.

Lemma in_period_raised : forall (evs : list (R * R)) cy m_c,
  map (fun p : R * R => @in_period ROps cy (m_c + c) (fst p) (snd p)) (raised c evs)
  = map (fun p : R * R => @in_period ROps cy m_c (fst p) (snd p)) evs.
Proof.
  intros. unfold raised. rewrite map_map. apply map_ext. intros [y m]. cbn [fst snd]. unfold in_period. rops. f_equal.
  replace (m_c + c - @mag_eq_tolerance ROps) with (m_c - @mag_eq_tolerance ROps + c) by ring. apply Rleb_plus.
Qed.

Lemma period_raised : forall (evs tab : list (R * R)) dmag ref cy cm p, 0 < dmag -> In (cy, cm) tab ->
  (exists y m, In (y, m) evs /\ cy <= y /\ cm + dmag / 2 <= m) ->
  @mle_period ROps (map fst evs) (map snd evs) (map fst tab) (map snd tab) dmag ref cy = Ok p ->
  exists p', @mle_period ROps (map fst (raised c evs)) (map snd (raised c evs)) (map fst (raised c tab)) (map snd (raised c tab))
               dmag (ref + c) cy = Ok p' /\ prel p p'.
Proof.
  intros evs tab dmag ref cy cm p D It (y0 & m0 & Ie & Hy & Hm) H. unfold mle_period in *.
  rewrite raised_fst. rewrite (raised_snd c tab), later_filter, later_minv. rops.
  apply bind_ok in H. destruct H as (m_c & HC & H). rewrite HC. cbn [bind].
  apply bind_ok in H. destruct H as (ymax & HX & H). apply bind_ok in H. destruct H as (ymin & HN & H).
  apply bind_ok in H. destruct H as (t0 & HT & H). apply bind_ok in H. destruct H as ((b, sb) & HB & H).
  rewrite !map2_pairs in *. assert (EP := in_period_raised evs cy m_c). rops. rewrite EP. rewrite raised_fst, raised_snd, later_filter.
  rewrite HX, HN. cbn [bind].
  destruct (table_raised _ _ _ _ HT) as (t1 & HT1 & M1 & N1). rewrite HT1. cbn [bind]. rops. rewrite M1, N1.
  assert (MC : m_c <= cm).
  { apply minv_spec in HC. destruct HC as (_ & HC). apply HC. unfold same_year.
    rewrite (mask_get_combine_snd _ _ _ (map fst tab) (map snd tab)) by now rewrite !map_length.
    apply in_map_iff. exists (cy, cm). split; auto. apply filter_In. split.
    - clear -It. induction tab as [|(u, v) tab IH]; [destruct It|]. cbn [map combine fst snd]. destruct It as [E|It]; [left; auto|right; auto].
    - cbn [fst]. unfold mag_eq_tolerance, lit. rops. apply Rltb_true. rewrite Rminus_diag_eq, Rabs_R0 by auto. lra. }
  set (f := fun q : R * R => @in_period ROps cy m_c (fst q) (snd q)) in *.
  assert (If : In (y0, m0) (filter f evs)).
  { apply filter_In. split; auto. unfold f, in_period, mag_eq_tolerance, lit. cbn [fst snd]. rops. apply andb_true_iff.
    split; apply Rleb_true; lra. }
  assert (W : 0 < wtotal (filter (fun q => Rleb m_c (fst q)) (combine (map rc_mag t0) (map rc_n t0)))).
  { rewrite !(mask_get_pairs (R * R) R) in HT.
    apply (some_counted (map snd (filter f evs)) (map fst (filter f evs)) dmag m_c m0); auto.
    - apply in_map_iff. exists (y0, m0). auto.
    - intros E. apply map_eq_nil in E. rewrite E in If. destruct If.
    - lra. }
  assert (SB := C36_shift_proof (map rc_mag t0) (map rc_n t0) dmag m_c c (eq_trans (map_length _ _) (eq_sym (map_length _ _))) W).
  fold (later c (map rc_mag t0)) in SB. rops. rewrite SB, HB. cbn [bind].
  assert (Q : forall X Y : @period ROps, Ok X = Ok Y -> X = Y) by congruence. apply Q in H. subst p.
  eexists. split; [reflexivity|]. unfold prel. cbn [pd_n pd_b pd_sb pd_rate]. repeat split; auto.
  f_equal. ring.
Qed.

Lemma loop_raised : forall (evs tab : list (R * R)) dmag ref, 0 < dmag ->
  (forall cy cm, In (cy, cm) tab -> exists y m, In (y, m) evs /\ cy <= y /\ cm + dmag / 2 <= m) ->
  forall fuel i ps,
  @mle_loop ROps fuel (map fst evs) (map snd evs) (map fst tab) (map snd tab) dmag ref i = Ok ps ->
  exists ps', @mle_loop ROps fuel (map fst evs) (later c (map snd evs)) (map fst tab) (later c (map snd tab))
    dmag (ref + c) i = Ok ps' /\ Forall2 prel ps ps'.
Proof.
  intros evs tab dmag ref D G. induction fuel as [|fuel IH]; intros i ps H; cbn [mle_loop] in *.
  - rops. destruct (nth_error (map fst tab) i); [discriminate|]. injection H as <-. eauto.
  - rops. destruct (nth_error (map fst tab) i) as [cy|] eqn:NE; [|injection H as <-; eauto].
    apply bind_ok in H. destruct H as (p & HP & H). apply bind_ok in H. destruct H as (qs & HQ & H).
    assert (It : exists cm, In (cy, cm) tab).
    { apply nth_error_In in NE. apply in_map_iff in NE. destruct NE as ((u, v) & <- & I). exists v. exact I. }
    destruct It as (cm & It).
    destruct (period_raised evs tab dmag ref cy cm p D It (G cy cm It) HP) as (p' & HP' & R). rewrite !raised_fst, !raised_snd in HP'. rops. rewrite HP'. cbn [bind].
    destruct (IH _ _ HQ) as (qs' & HQ' & R'). rops. rewrite HQ'. cbn [bind].
    injection H as <-. eauto.
Qed.

Lemma time_raised : forall (evs tab : list (R * R)) dmag ref b sb a sa, 0 < dmag ->
  (forall cy cm, In (cy, cm) tab -> exists y m, In (y, m) evs /\ cy <= y /\ cm + dmag / 2 <= m) ->
  @b_maxlike_time ROps (map fst evs) (map snd evs) (map fst tab) (map snd tab) dmag ref = Ok (b, sb, a, sa) ->
  exists sa', @b_maxlike_time ROps (map fst (raised c evs)) (map snd (raised c evs)) (map fst (raised c tab)) (map snd (raised c tab))
    dmag (ref + c) = Ok (b, sb, a, sa').
Proof.
  intros evs tab dmag ref b sb a sa D G H. unfold b_maxlike_time in *.
  apply bind_ok in H. destruct H as (ps & HL & H).
  rewrite !raised_fst, !raised_snd. rops. destruct (loop_raised evs tab dmag ref D G _ _ _ HL) as (ps' & HL' & FR). rops. rewrite HL'. cbn [bind].
  assert (E : map pd_n ps' = map pd_n ps /\ map pd_b ps' = map pd_b ps /\ map pd_sb ps' = map pd_sb ps /\ map pd_rate ps' = map pd_rate ps).
  { clear -FR. induction FR as [|p p' ps ps' (H1 & H2 & H3 & H4) FR IH]; auto. destruct IH as (I1 & I2 & I3 & I4).
    cbn [map]. rewrite H1, H2, H3, H4. repeat split; f_equal; assumption. }
  destruct E as (E1 & E2 & E3 & E4).
  assert (W : forall t, map (fun p => @ofnat ROps (pd_n p) / t) ps' = map (fun p => @ofnat ROps (pd_n p) / t) ps).
  { intros t. transitivity (map (fun k => @ofnat ROps k / t) (map pd_n ps')); [now rewrite map_map|]. rewrite E1. now rewrite map_map. }
  destruct FR as [|p p' ps ps' FR0 FR]; [discriminate|].
  revert H. generalize dependent (p :: ps). generalize dependent (p' :: ps'). intros us' _ us _ E1 E2 E3 E4 W H.
  rops. rewrite E1, E2, E3, E4, W.
  assert (Q : forall X Y : R * R * R * R, Ok X = Ok Y -> X = Y) by congruence. apply Q in H.
  apply pair_equal_spec in H. destruct H as (H & _). eexists. f_equal. apply pair_equal_spec. split; [exact H|reflexivity].
Qed.

End Tenths.

(** ** Weichert *)
Section Weichert.
Variable c : R.

Lemma hist2d_raised : forall (year fmag ti mi : list R),
  @histogram2d ROps year (later c fmag) ti (later c mi) = @histogram2d ROps year fmag ti mi.
Proof.
  intros. unfold histogram2d. rops. rewrite later_length. apply map_ext_in. intros a _.
  apply map_ext_in. intros b Hb. apply in_seq in Hb. f_equal. revert fmag. induction year as [|y year IH]; intros [|m fmag]; cbn [later map map2]; auto.
  unfold later in IH. rewrite IH. f_equal. f_equal. apply in_bin_later. simpl in Hb. lia.
Qed.

Lemma zero_raised : forall (ti mi : list R) m row,
  @zero_incomplete ROps ti (later c mi) m (fst row, snd row + c) = @zero_incomplete ROps ti mi m row.
Proof.
  intros. unfold zero_incomplete. cbn [fst snd].
  assert (E : map (fun t => @ltb ROps t (snd row + c)) (later c mi) = map (fun t => @ltb ROps t (snd row)) mi).
  { unfold later. rewrite map_map. apply map_ext. intros t. rops. apply Rltb_plus. }
  rops. rewrite E. reflexivity.
Qed.

Lemma fold_raised : forall (ti mi : list R) tab m,
  fold_left (@zero_incomplete ROps ti (later c mi)) (raised c tab) m = fold_left (@zero_incomplete ROps ti mi) tab m.
Proof.
  intros ti mi. induction tab as [|r tab IH]; intros m; cbn [raised map fold_left]; auto.
  rewrite zero_raised. apply IH.
Qed.

Lemma tper_raised : forall ymax tab mg,
  @weichert_tper ROps ymax (raised c tab) (mg + c) = @weichert_tper ROps ymax tab mg.
Proof.
  intros. unfold weichert_tper.
  assert (E : map (fun row => @ltb ROps (@sub ROps (snd row) (mg + c)) (lit 1 1000)) (raised c tab)
            = map (fun row => @ltb ROps (@sub ROps (snd row) mg) (lit 1 1000)) tab).
  { unfold raised. rewrite map_map. apply map_ext. intros r. cbn [snd]. rops. f_equal. ring. }
  rops. rewrite E. destruct (last_opt _) as [k|].
  - unfold raised. rewrite nth_error_map. destruct (nth_error tab k) as [r|]; auto.
  - unfold raised.
    assert (L : forall l : list (R * R), last_opt (map (fun r => (fst r, snd r + c)) l)
       = option_map (fun r => (fst r, snd r + c)) (last_opt l)).
    { induction l as [|x [|y l] IH]; auto. }
    rewrite L. destruct (last_opt tab) as [r|]; auto.
Qed.

Lemma centres_later : forall l : list R, @centres ROps (later c l) = later c (@centres ROps l).
Proof.
  induction l as [|x [|y l] IH]; auto. unfold later in *. cbn [map] in *. cbn [centres] in *. rops. rewrite IH. cbn [map]. f_equal. field.
Qed.

Lemma prep_raised : forall (year fmag : list R) tab d_m d_t,
  map (@round1 ROps) (later c fmag) = later c (map (@round1 ROps) fmag) ->
  @weichert_prep ROps year (later c fmag) (raised c tab) d_m d_t
  = match @weichert_prep ROps year fmag tab d_m d_t with Ok (cent, tper, obs) => Ok (later c cent, tper, obs) | Err e => Err e end.
Proof.
  intros year fmag tab d_m d_t RD. unfold weichert_prep.
  destruct (@minv ROps year) as [y0|]; cbn [bind]; auto. destruct (@maxv ROps year) as [y1|]; cbn [bind]; auto.
  rops. rewrite RD, later_minv, later_maxv.
  destruct (@minv ROps (@map R R (@round1 ROps) fmag)) as [m0|]; cbn [bind]; auto. destruct (@maxv ROps (@map R R (@round1 ROps) fmag)) as [m1|]; cbn [bind]; auto.
  unfold lit. rops. replace (m1 + c + 15 / 10 * d_m) with (m1 + 15 / 10 * d_m + c) by ring.
  rewrite later_arange, hist2d_raised, fold_raised, centres_later, later_length.
  set (A := @arange ROps m0 (m1 + 15 / 10 * d_m) d_m) in *.
  assert (E : mapM (fun i => @weichert_tper ROps y1 (raised c tab) (nth i (later c A) 0))
                (seq 0 (length A - 1))
            = mapM (fun i => @weichert_tper ROps y1 tab (nth i A 0))
                (seq 0 (length A - 1))).
  { assert (B : forall i, In i (seq 0 (length A - 1)) ->
              (i < length A)%nat) by (intros i Hi; apply in_seq in Hi; lia).
    revert B. induction (seq 0 _) as [|i l IH]; intros B; cbn [mapM]; auto. rewrite later_nth by (apply B; now left). rewrite tper_raised.
    apply bind_both; auto. intros t. rewrite IH by (intros j Hj; apply B; now right). reflexivity. }
  rops. rewrite E. clear E. match goal with |- bind ?x _ = match bind ?y _ with _ => _ end => change y with x; destruct x; reflexivity end.
Qed.

Lemma sums_raised : forall (tper fmag nobs : list R) beta, length tper = length fmag -> length nobs = length fmag ->
  (forall t, In t tper -> 0 < t) -> fmag <> [] ->
  @weichert_sums ROps tper (later c fmag) nobs beta = @weichert_sums ROps tper fmag nobs beta.
Proof.
  intros tper fmag nobs beta L1 L2 P NE. unfold weichert_sums. cbv zeta. rops. rewrite !sumv_R. unfold sq. rops.
  set (K := exp (- beta * c)). assert (KP : 0 < K) by apply exp_pos.
  assert (EX : forall m, exp (- beta * (m + c)) = K * exp (- beta * m)).
  { intros m. unfold K. rewrite <- exp_plus. f_equal. ring. }
  set (f := fun m : R => exp (- beta * m)).
  assert (S1 : Rsum (map2 Rmult nobs (later c fmag)) = Rsum (map2 Rmult nobs fmag) + c * Rsum nobs).
  { clear -L2. revert nobs L2. induction fmag as [|m fmag IH]; intros [|n nobs] L; cbn [length later map map2 Rsum] in *; try discriminate; [ring|].
    unfold later in IH. rewrite IH by lia. ring. }
  assert (S2 : Rsum (map f (later c fmag)) = K * Rsum (map f fmag)).
  { clear -EX. induction fmag as [|m fmag IH]; cbn [later map Rsum]; [ring|]. unfold later in IH. rewrite IH. unfold f at 1. rewrite EX. unfold f. ring. }
  assert (S3 : Rsum (map2 Rmult tper (map f (later c fmag))) = K * Rsum (map2 Rmult tper (map f fmag))).
  { clear -EX L1. revert tper L1. induction fmag as [|m fmag IH]; intros [|t tper] L; cbn [length later map map2 Rsum] in *; try discriminate; [ring|].
    unfold later in IH. rewrite IH by lia. unfold f at 1. rewrite EX. unfold f. ring. }
  assert (S4 : Rsum (map2 Rmult (map2 Rmult tper (map f (later c fmag))) (later c fmag))
             = K * (Rsum (map2 Rmult (map2 Rmult tper (map f fmag)) fmag) + c * Rsum (map2 Rmult tper (map f fmag)))).
  { clear -EX L1. revert tper L1. induction fmag as [|m fmag IH]; intros [|t tper] L; cbn [length later map map2 Rsum] in *; try discriminate; [ring|].
    unfold later in IH. rewrite IH by lia. unfold f at 1. rewrite EX. unfold f. ring. }
  assert (S5 : Rsum (map2 Rmult (later c fmag) (map2 Rmult (map2 Rmult tper (map f (later c fmag))) (later c fmag)))
             = K * (Rsum (map2 Rmult fmag (map2 Rmult (map2 Rmult tper (map f fmag)) fmag))
                    + 2 * c * Rsum (map2 Rmult (map2 Rmult tper (map f fmag)) fmag) + c * c * Rsum (map2 Rmult tper (map f fmag)))).
  { clear -EX L1. revert tper L1. induction fmag as [|m fmag IH]; intros [|t tper] L; cbn [length later map map2 Rsum] in *; try discriminate; [ring|].
    unfold later in IH. rewrite IH by lia. unfold f at 1. rewrite EX. unfold f. ring. }
  assert (POS : 0 < Rsum (map2 Rmult tper (map f fmag))).
  { apply Rsum_pos.
    - intros x Hx. clear -P Hx. revert tper P Hx. induction fmag as [|m fmag IH]; intros [|t tper] P Hx; cbn [map map2] in *; try (now destruct Hx).
      destruct Hx as [<-|Hx]; [apply Rmult_lt_0_compat; [apply P; now left|apply exp_pos]|]. apply (IH tper); auto. intros u Hu. apply P. now right.
    - destruct tper, fmag; try discriminate; congruence. }
  rewrite S1, S2, S3, S4, S5.
  repeat (apply pair_equal_spec; split); auto; field; lra.
Qed.

Lemma loop_raised_w : forall (tper fmag nobs : list R) m0 mrate itstab, length tper = length fmag -> length nobs = length fmag ->
  (forall t, In t tper -> 0 < t) -> fmag <> [] -> mrate <> 0 -> mrate + c <> 0 -> forall fuel beta,
  @weichert_loop ROps fuel tper (later c fmag) nobs (m0 + c) (mrate + c) beta itstab
  = @weichert_loop ROps fuel tper fmag nobs m0 mrate beta itstab.
Proof.
  intros tper fmag nobs m0 mrate itstab L1 L2 P NE N0 N1. induction fuel as [|fuel IH]; intros beta; auto. cbn [weichert_loop].
  rewrite sums_raised by auto. destruct (@weichert_sums ROps tper fmag nobs beta) as [[[dl d2] ratio] nk]. rops.
  destruct (Rleb _ _); [|apply IH].
  replace (Reqb (mrate + c) 0) with false by (symmetry; apply Reqb_false; auto).
  replace (Reqb mrate 0) with false by (symmetry; apply Reqb_false; auto).
  replace (mrate + c - (m0 + c)) with (mrate - m0) by ring. reflexivity.
Qed.

End Weichert.

(** ** The whole analysis *)

Definition no_tie (m : R) : Prop := forall k, 10 * m <> IZR k + 1 / 2.

Lemma Rrint_plus_off : forall x z, (forall k, x <> IZR k + 1 / 2) -> Rrint (x + IZR z) = (Rrint x + z)%Z.
Proof.
  intros x z N. unfold Rrint. cbv zeta. rewrite Rfloor_plus, plus_IZR.
  replace (x + IZR z - (IZR (Rfloor x) + IZR z)) with (x - IZR (Rfloor x)) by ring.
  destruct (Rlt_dec _ _); auto. destruct (Rlt_dec _ _); [lia|]. exfalso. apply (N (Rfloor x)). lra.
Qed.

Lemma round_raised : forall z (fmag : list R), Z.even z = true \/ (forall m, In m fmag -> no_tie m) ->
  map (@round1 ROps) (later (IZR z / 10) fmag) = later (IZR z / 10) (map (@round1 ROps) fmag).
Proof.
  intros z fmag H. unfold later. rewrite !map_map. apply map_ext_in. intros m Hm. unfold round1. rops.
  replace ((m + IZR z / 10) * 10) with (10 * m + IZR z) by field. replace (m * 10) with (10 * m) by ring.
  assert (E : Rrint (10 * m + IZR z) = (Rrint (10 * m) + z)%Z).
  { destruct H as [H|H]; [now apply Rrint_plus|]. apply Rrint_plus_off. apply (H m Hm). }
  rewrite E, plus_IZR. field.
Qed.

Lemma raised_back : forall c l, raised (- c) (raised c l) = l.
Proof. intros. unfold raised. rewrite map_map. rewrite <- (map_id l) at 2. apply map_ext. intros [y m]. cbn [fst snd]. f_equal. ring. Qed.

Lemma mle_one_way : forall fuel (evs tab : list (R * R)) (window : R) alg (ref twin : R) z, 0 < window -> alg <> "Weichert"%string ->
  (forall cy cm, In (cy, cm) tab -> exists y m, In (y, m) evs /\ cy <= y /\ cm + window / 2 <= m) ->
  let run evs tab ref := @recurrence_analysis ROps fuel (map fst evs) (map snd evs) tab window alg ref twin in
  let c := IZR z / 10 in
  forall b sb a sa, run evs tab ref = Ok (b, sb, a, sa) ->
    exists sa', run (raised c evs) (raised c tab) (ref + c) = Ok (b, sb, a, sa').
Proof.
  intros fuel evs tab window alg ref twin z W A G. cbv zeta beta. intros b sb a sa H. unfold recurrence_analysis in *.
  apply String.eqb_neq in A. rewrite A in *. exact (time_raised z evs tab window ref b sb a sa W G H).
Qed.

Lemma C111_mle_proof : forall fuel (evs tab : list (R * R)) (window : R) alg (ref twin : R) z, 0 < window -> alg <> "Weichert"%string ->
  (forall cy cm, In (cy, cm) tab -> exists y m, In (y, m) evs /\ cy <= y /\ cm + window / 2 <= m) ->
  let run evs tab ref := @recurrence_analysis ROps fuel (map fst evs) (map snd evs) tab window alg ref twin in
  let c := IZR z / 10 in
  forall b sb a, (exists sa, run (raised c evs) (raised c tab) (ref + c) = Ok (b, sb, a, sa)) <-> (exists sa, run evs tab ref = Ok (b, sb, a, sa)).
Proof.
  intros fuel evs tab window alg ref twin z W A G run c b sb a. split; intros (sa & H).
  - assert (G' : forall cy cm, In (cy, cm) (raised c tab) -> exists y m, In (y, m) (raised c evs) /\ cy <= y /\ cm + window / 2 <= m).
    { intros cy cm I. unfold raised in I. apply in_map_iff in I. destruct I as ((u, v) & E & I). cbn [fst snd] in E. injection E as <- <-.
      destruct (G u v I) as (y & m & Ie & Hy & Hm). exists y, (m + c). split; [|split; lra].
      unfold raised. apply in_map_iff. exists (y, m). auto. }
    destruct (mle_one_way fuel (raised c evs) (raised c tab) window alg (ref + c) twin (- z) W A G' b sb a sa H) as (sa' & H').
    exists sa'. unfold run. rewrite opp_IZR in H'. replace (- IZR z / 10) with (- c) in H' by (unfold c; field).
    rewrite !raised_back in H'. replace (ref + c + - c) with ref in H' by ring. exact H'.
  - exact (mle_one_way fuel evs tab window alg ref twin z W A G b sb a sa H).
Qed.

Lemma centres_length : forall l : list R, length (@centres ROps l) = (length l - 1)%nat.
Proof. induction l as [|x [|y l] IH]; auto. cbn [centres length] in *. rewrite IH. lia. Qed.

Lemma mapM_In : forall A B (f : A -> res B) l ys, mapM f l = Ok ys -> length ys = length l /\ (forall y, In y ys -> exists x, In x l /\ f x = Ok y).
Proof.
  induction l as [|x l IH]; intros ys H; cbn [mapM] in H; [injection H as <-; split; [auto|intros y []]|].
  apply bind_ok in H. destruct H as (y & HY & H). apply bind_ok in H. destruct H as (ys' & HS & H). injection H as <-.
  destruct (IH _ HS) as (L & I). split; [simpl; lia|]. intros y' [<-|Hy]; [exists x; simpl; auto|]. destruct (I _ Hy) as (x' & Hx & E). exists x'. simpl. auto.
Qed.

Lemma tper_row : forall ymax (tab : list (R * R)) mg t, @weichert_tper ROps ymax tab mg = Ok t ->
  exists row, In row tab /\ t = ymax - fst row + 1.
Proof.
  intros ymax tab mg t H. unfold weichert_tper in H. rops.
  match type of H with match ?x with _ => _ end = _ => destruct x as [k|] end.
  - match type of H with match ?x with _ => _ end = _ => destruct x as [row|] eqn:E end; [|discriminate]. injection H as <-.
    apply nth_error_In in E. eauto.
  - match type of H with match ?x with _ => _ end = _ => destruct x as [row|] eqn:E end; [|discriminate]. injection H as <-.
    exists row. split; auto. clear -E. induction tab as [|a [|b tab] IH]; [discriminate|injection E as <-; now left|]. right. apply IH. exact E.
Qed.

Lemma prep_shape : forall (evs tab : list (R * R)) d_m d_t cent tper obs,
  (forall cy cm, In (cy, cm) tab -> exists y m, In (y, m) evs /\ cy <= y) ->
  @weichert_prep ROps (map fst evs) (map snd evs) tab d_m d_t = Ok (cent, tper, obs) ->
  length tper = length cent /\ length obs = length cent /\ (forall t, In t tper -> 0 < t).
Proof.
  intros evs tab d_m d_t cent tper obs G H. unfold weichert_prep in H.
  apply bind_ok in H. destruct H as (y0 & _ & H). apply bind_ok in H. destruct H as (y1 & HX & H).
  apply bind_ok in H. destruct H as (m0 & _ & H). apply bind_ok in H. destruct H as (m1 & _ & H).
  apply bind_ok in H. destruct H as (ts & HT & H).
  assert (Q : forall X Y : list R * list R * list nat, Ok X = Ok Y -> X = Y) by congruence. apply Q in H.
  apply pair_equal_spec in H. destruct H as (H & HO). apply pair_equal_spec in H. destruct H as (HC & HTP). subst cent tper obs.
  destruct (mapM_In _ _ _ _ _ HT) as (L & I). rewrite map_length, seq_length. rops. rewrite L, seq_length, centres_length. repeat split; auto.
  intros t Ht. destruct (I t Ht) as (i & _ & E). destruct (tper_row _ _ _ _ E) as ((cy, cm) & Hr & ->).
  destruct (G cy cm Hr) as (y & m & Ie & Hy). apply maxv_spec in HX. destruct HX as (_ & HX).
  assert (y <= y1). { apply HX. apply in_map_iff. exists (y, m). auto. } cbn [fst]. lra.
Qed.

Lemma C111_weichert_proof : forall fuel (evs tab : list (R * R)) (window ref twin : R) z,
  (forall cy cm, In (cy, cm) tab -> exists y m, In (y, m) evs /\ cy <= y) ->
  let c := IZR z / 10 in
  Z.even z = true \/ (forall y m, In (y, m) evs -> forall k, 10 * m <> IZR k + 1 / 2) -> ref <> 0 -> ref + c <> 0 ->
  let run evs tab ref := @recurrence_analysis ROps fuel (map fst evs) (map snd evs) tab window "Weichert" ref twin in
  run (raised c evs) (raised c tab) (ref + c) = run evs tab ref.
Proof.
  intros fuel evs tab window ref twin z G c Z N0 N1. cbv zeta beta. unfold recurrence_analysis.
  rewrite String.eqb_refl. rewrite raised_fst, raised_snd. unfold c. rewrite prep_raised.
  2: { apply round_raised. destruct Z as [Z|Z]; [now left|right]. intros m Hm. apply in_map_iff in Hm. destruct Hm as ((y, m') & <- & I). exact (Z y m' I). }
  fold c. rops. destruct (@weichert_prep ROps (map fst evs) (map snd evs) tab window twin) as [[[cent tper] obs]|e] eqn:E; cbn [bind]; auto.
  destruct (prep_shape _ _ _ _ _ _ _ G E) as (L1 & L2 & P).
  unfold weichert. destruct cent as [|f0 [|f1 rest]]; [reflexivity|reflexivity|].
  change (later c (f0 :: f1 :: rest)) with (f0 + c :: f1 + c :: later c rest). cbv iota. rops.
  change (f0 + c :: f1 + c :: later c rest) with (later c (f0 :: f1 :: rest)).
  replace (f0 + c - (f1 + c - (f0 + c)) / 2) with (f0 - (f1 - f0) / 2 + c) by field.
  apply loop_raised_w; auto; [now rewrite map_length|discriminate].
Qed.

(** ** The error of a, a witness *)

Definition w111_evs : list (R * R) := [(1990, 5); (1995, 5); (1999, 6)].

Lemma wsum_pos : forall (f : R -> R) (tab : list (@rec_row ROps)) m_c row, (forall r, In r tab -> m_c <= rc_mag r) ->
  (forall r, In r tab -> 0 <= rc_n r) -> (forall m, 0 <= f m) -> In row tab -> 0 < rc_n row -> 0 < f (rc_mag row) ->
  0 < wsum f (filter (fun p => Rleb m_c (fst p)) (combine (map rc_mag tab) (map rc_n tab))).
Proof.
  intros f tab m_c row M N F I P Q. unfold wsum. induction tab as [|r tab IH]; [destruct I|].
  assert (S : forall t : list (@rec_row ROps), (forall q, In q t -> 0 <= rc_n q) ->
    0 <= Rsum (map (fun p => snd p * f (fst p)) (filter (fun p => Rleb m_c (fst p)) (combine (map rc_mag t) (map rc_n t))))).
  { intros t Ht. apply Rsum_nonneg. intros x Ix. apply in_map_iff in Ix. destruct Ix as ([a b] & <- & Ix). apply filter_In in Ix. destruct Ix as (Ix & _).
    apply in_combine_r in Ix. apply in_map_iff in Ix. destruct Ix as (q & <- & Iq). apply Rmult_le_pos; auto. exact (Ht q Iq). }
  cbn [map combine filter fst]. replace (Rleb m_c (rc_mag r)) with true by (symmetry; apply Rleb_true; apply M; now left).
  cbn [map fst snd Rsum]. destruct I as [->|I].
  - apply Rplus_lt_le_0_compat; [now apply Rmult_lt_0_compat|]. apply S. intros q Hq. apply N. now right.
  - apply Rplus_le_lt_0_compat; [apply Rmult_le_pos; [apply N; now left|apply F]|].
    apply IH; auto; intros q Hq; [apply M|apply N]; now right.
Qed.

Lemma count_pos : forall (f : R -> bool) x l, In x l -> f x = true -> (0 < count f l)%nat.
Proof.
  intros f x l I E. unfold count. induction l as [|a l IH]; [destruct I|]. destruct I as [->|I]; cbn [filter].
  - rewrite E. simpl. lia.
  - destruct (f a); simpl; auto; lia.
Qed.

Lemma w111_sb : forall r b sb a sa, @b_maxlike_time ROps w90_year w90_mag [1980] [4] (1/10) r = Ok (b, sb, a, sa) -> 0 < sb.
Proof.
  intros r b sb a sa H. destruct (one_period w90_year w90_mag _ _ _ _ _ _ _ _ eq_refl H) as [n (mc & tab & fi & la & M & HP)].
  apply one_row_min in M. subst mc. cbv zeta in HP. destruct HP as (_ & _ & _ & _ & TT & BB & _).
  replace (filter (fun e : R * R => (Rleb 1980 (fst e) && Rleb (4 - 1 / 100000) (snd e))%bool)
              (combine w90_year w90_mag)) with (combine w90_year w90_mag) in TT.
  2: { unfold w90_year, w90_mag. cbn [combine filter fst snd]. rdec. reflexivity. }
  destruct (rows_at_least (map snd (combine w90_year w90_mag)) (map fst (combine w90_year w90_mag)) (1/10) 4 40 tab ltac:(lra) ltac:(discriminate) ltac:(discriminate) ltac:(lra)
    ltac:(intros m [<-|[<-|[<-|[]]]]; simpl; lra) TT) as [A B].
  destruct (C35_proof (map snd (combine w90_year w90_mag)) (map fst (combine w90_year w90_mag)) (1/10)
      ltac:(lra) ltac:(discriminate) ltac:(discriminate)) as (tab' & lo & first & last & ET & _ & _ & _ & RR & _ & BN).
  rewrite TT in ET. injection ET as <-.
  assert (NN : forall row, In row tab -> 0 <= rc_n row).
  { intros row I. apply In_nth_error in I. destruct I as [k Hk]. destruct (RR k row Hk) as (_ & -> & _). apply pos_INR. }
  destruct (C36_proof (map rc_mag tab) (map rc_n tab) (1/10) 4) as (mmin & b' & s' & E & _ & _ & [Hb _] & Hs & _).
  - rewrite !map_length. reflexivity.
  - intros n0 I. apply in_map_iff in I. destruct I as (row & <- & I). auto.
  - lra.
  - rewrite used_all by auto. rewrite B. apply lt_0_INR. simpl. lia.
  - rops. rewrite BB in E. injection E as <- <-. rewrite Hs.
    apply Rmult_lt_0_compat; [apply Rmult_lt_0_compat; [lra|now apply Rmult_lt_0_compat]|]. apply sqrt_lt_R0.
    assert (UA := used_all tab 4 A). rops. rewrite UA, B. apply Rdiv_lt_0_compat; [|simpl; lra].
    match goal with |- 0 < wsum (fun m => (m - ?w) * (m - ?w)) _ => set (mu := w) end.
    destruct (BN 5 ltac:(simpl; auto)) as (k5 & K5 & B5 & _). destruct (BN 6 ltac:(simpl; auto)) as (k6 & K6 & B6 & _).
    destruct (nth_error tab k5) as [r5|] eqn:N5; [|apply nth_error_None in N5; lia].
    destruct (nth_error tab k6) as [r6|] eqn:N6; [|apply nth_error_None in N6; lia].
    destruct (RR _ _ N5) as (M5 & C5 & _). destruct (RR _ _ N6) as (M6 & C6 & _).
    assert (P5 : 0 < rc_n r5) by (rewrite C5; apply lt_0_INR; apply (count_pos _ 5); [simpl; auto|exact B5]).
    assert (P6 : 0 < rc_n r6) by (rewrite C6; apply lt_0_INR; apply (count_pos _ 6); [simpl; auto|exact B6]).
    apply nth_error_In in N5, N6.
    assert (D : rc_mag r5 < rc_mag r6).
    { rewrite M5, M6. unfold bin_of in B5, B6. apply andb_true_iff in B5, B6. destruct B5 as (B5 & B5'), B6 as (B6 & B6').
      apply Rleb_true in B5, B6. apply Rltb_true in B5', B6'. rewrite plus_INR in B5', B6'. simpl (INR 1) in *. lra. }
    assert (SQ : forall m, 0 <= (m - mu) * (m - mu)) by (intros m; apply Rle_0_sqr).
    assert (SP : forall m, m <> mu -> 0 < (m - mu) * (m - mu)) by (intros m Hm; apply Rlt_0_sqr; lra).
    destruct (Req_dec (rc_mag r5) mu) as [E5|E5].
    + apply (wsum_pos _ tab 4 r6); auto. apply SP. lra.
    + apply (wsum_pos _ tab 4 r5); auto.
Qed.

Lemma C111_mle_refuted_proof : exists (evs tab : list (R * R)) (window : R) alg (ref twin : R) z b sb a sa sa',
  0 < window /\ alg <> "Weichert"%string /\
  (forall cy cm, In (cy, cm) tab -> exists y m, In (y, m) evs /\ cy <= y /\ cm + window / 2 <= m) /\
  let run evs tab ref := @recurrence_analysis ROps 0 (map fst evs) (map snd evs) tab window alg ref twin in
  let c := IZR z / 10 in
  run evs tab ref = Ok (b, sb, a, sa) /\ run (raised c evs) (raised c tab) (ref + c) = Ok (b, sb, a, sa') /\ sa < sa'.
Proof.
  destruct (w90_ok 4) as [[[[b sb] a] sa] E]. assert (SB := w111_sb _ _ _ _ _ E).
  assert (G : forall cy cm, In (cy, cm) [(1980, 4)] -> exists y m, In (y, m) w111_evs /\ cy <= y /\ cm + 1 / 10 / 2 <= m).
  { intros cy cm [I|[]]. injection I as <- <-. exists 1990, 5. split; [now left|lra]. }
  destruct (mle_one_way 0 w111_evs [(1980, 4)] (1/10) "MLE" 4 1 10 ltac:(lra) ltac:(discriminate) G b sb a sa) as (sa' & E').
  { exact E. }
  exists w111_evs, [(1980, 4)], (1/10), "MLE"%string, 4, 1, 10%Z, b, sb, a, sa, sa'.
  split; [lra|]. split; [discriminate|]. split; [exact G|]. cbv zeta beta. split; [exact E|]. split; [exact E'|].
  destruct (C90_partial_proof w90_year w90_mag _ _ _ _ _ _ _ _ eq_refl E) as [-> _].
  unfold recurrence_analysis in E'. cbn [String.eqb Ascii.eqb Bool.eqb] in E'. cbn [raised map fst snd w111_evs] in E'.
  destruct (C90_partial_proof [1990; 1995; 1999] [5 + 10/10; 5 + 10/10; 6 + 10/10] 1980 (4 + 10/10) (1/10) (4 + 10/10) b sb a sa' eq_refl E') as [-> _].
  apply Rpower_lt; [lra|]. rewrite !Rabs_right; lra.
Qed.
