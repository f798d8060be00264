(** Proofs for C100: the epoch from which years are counted. *)
From Coq Require Import Reals ZArith Bool Arith Lia Lra String List.
From Verif Require Import Base BaseFacts Ops Completeness Recurrence MaxMag RFacts FrameSpec OrderProofs.
Import ListNotations.
Local Open Scope R_scope.

Section Epoch.
Variable c : R.

Notation later := (later c).
Notation later_table := (later_table c).

Lemma later_maxv : forall l : list R, @maxv ROps (later l) = match @maxv ROps l with Ok x => Ok (x + c) | Err e => Err e end.
Proof.
  intros [|a l]; auto. destruct (maxv_ok (a :: l) ltac:(discriminate)) as [m H]. rewrite H.
  apply maxv_spec in H. destruct H as [I M]. apply maxv_spec. split.
  - unfold later. apply in_map_iff. eauto.
  - intros y Hy. unfold later in Hy. apply in_map_iff in Hy. destruct Hy as (x & <- & Hx). specialize (M x Hx). lra.
Qed.

Lemma later_minv : forall l : list R, @minv ROps (later l) = match @minv ROps l with Ok x => Ok (x + c) | Err e => Err e end.
Proof.
  intros [|a l]; auto. destruct (minv_ok (a :: l) ltac:(discriminate)) as [m H]. rewrite H.
  apply minv_spec in H. destruct H as [I M]. apply minv_spec. split.
  - unfold later. apply in_map_iff. eauto.
  - intros y Hy. unfold later in Hy. apply in_map_iff in Hy. destruct Hy as (x & <- & Hx). specialize (M x Hx). lra.
Qed.

Lemma later_arange : forall a b s : R, @arange ROps (a + c) (b + c) s = later (@arange ROps a b s).
Proof.
  intros. unfold arange, later. rewrite map_map.
  assert (E : @arange_len ROps (a + c) (b + c) s = @arange_len ROps a b s).
  { unfold arange_len. rops. replace (b + c - (a + c)) with (b - a) by ring. reflexivity. }
  rewrite E. apply map_ext. intros i. rewrite !arange_at_R. ring.
Qed.

Lemma later_length : forall l, length (later l) = length l.
Proof. intros. unfold later. apply map_length. Qed.

Lemma later_filter : forall (mask : list bool) (l : list R), mask_get mask (later l) = later (mask_get mask l).
Proof. intros. unfold later. apply mask_get_map. Qed.

(** ** Completeness *)

Lemma stepp_count_later : forall (year mw : list R) e mbin t jj,
  @stepp_count ROps (later year) mw (e + c) mbin t jj = @stepp_count ROps year mw e mbin t jj.
Proof.
  intros. unfold stepp_count, later. rewrite map_map. rops.
  assert (E : map (fun x => Rleb (e + c - t) (x + c)) year = map (fun y => Rleb (e - t) y) year).
  { apply map_ext. intros y. destruct (Rleb (e - t) y) eqn:E; [apply Rleb_true in E; apply Rleb_true; lra|].
    apply Rleb_false in E; apply Rleb_false; lra. }
  rewrite E. reflexivity.
Qed.

Lemma stepp_loop_later : forall (year mw : list R) e mbin tr ttol iloc bins prev,
  @stepp_loop ROps (later year) mw (e + c) mbin tr ttol iloc prev bins
  = @stepp_loop ROps year mw e mbin tr ttol iloc prev bins.
Proof.
  intros year mw e mbin tr ttol iloc. induction bins as [|b bins IH]; intros prev; cbn [stepp_loop]; auto.
  assert (E : map (fun t => @stepp_count ROps (later year) mw (e + c) mbin t b) tr
    = map (fun t => @stepp_count ROps year mw e mbin t b) tr) by (apply map_ext; intros; apply stepp_count_later).
  cbv zeta. rops. rewrite E. destruct (nth_error tr _); auto. rewrite IH. reflexivity.
Qed.

Lemma stepp_later : forall (year mw : list R) dm dt ttol iloc,
  @stepp_analysis ROps (later year) mw dm dt ttol iloc
  = match @stepp_analysis ROps year mw dm dt ttol iloc with Ok tab => Ok (later_table tab) | Err e => Err e end.
Proof.
  intros. unfold stepp_analysis. cbv zeta. destruct (stepp_mbin _ dm) as [mbin|]; cbn [bind]; auto.
  unfold stepp_time_range. rewrite later_maxv, later_minv.
  destruct (@maxv ROps year) as [e|]; cbn [bind]; auto. destruct (@minv ROps year) as [s|]; cbn [bind]; auto.
  rops. replace (e + c - (s + c) + 2) with (e - s + 2) by ring.
  destruct (length mbin) as [|nb]; auto. rewrite stepp_loop_later.
  destruct (stepp_loop _ _ _ _ _ _ _ _ _) as [lens|]; cbn [bind]; auto. f_equal.
  generalize (firstn nb mbin). intros bs. revert bs. induction lens as [|l lens IH]; intros [|b bs]; cbn [map2 later_table map]; auto.
  unfold later_table in IH. rewrite IH. f_equal. f_equal. cbn [fst]. ring.
Qed.

Lemma row_later : forall (year mw : list R) (y m : R),
  map2 (fun y0 m0 => @ltb ROps y0 (y + c) && @ltb ROps m0 m)%bool (later year) mw
  = map2 (fun y0 m0 => @ltb ROps y0 y && @ltb ROps m0 m)%bool year mw.
Proof.
  induction year as [|a year IH]; intros [|b mw] y m; cbn [later map map2]; auto.
  unfold later in IH. rewrite IH. f_equal. rops. f_equal.
  destruct (Rltb a y) eqn:E; [apply Rltb_true in E; apply Rltb_true; lra|apply Rltb_false in E; apply Rltb_false; lra].
Qed.

Lemma flag_later : forall (year mw : list R) tab,
  @completeness_flag ROps (later year) mw (later_table tab) = @completeness_flag ROps year mw tab.
Proof.
  intros year mw tab. unfold completeness_flag. 
  assert (L : length (later year) = length year) by (unfold later; apply map_length).
  rops. rewrite L. generalize (repeat 0%Z (@length R year)).
  induction tab as [|[y m] tab IH]; intros fl; cbn [later_table map fold_left fst snd]; auto.
  assert (E := row_later year mw y m). rops. rewrite E. apply IH.
Qed.

Lemma select_later : forall (year mw : list R) tab fl,
  @selected_eq_flag_vector ROps (later year) mw (later_table tab) fl = @selected_eq_flag_vector ROps year mw tab fl.
Proof.
  intros. unfold selected_eq_flag_vector. rewrite flag_later. unfold later. rewrite map_length. reflexivity.
Qed.

(** ** Recurrence *)

Lemma table_later : forall (mag year : list R) dmag,
  @recurrence_table ROps mag dmag (later year) = @recurrence_table ROps mag dmag year.
Proof.
  intros. unfold recurrence_table. rewrite later_maxv, later_minv.
  destruct (@maxv ROps year) as [a|]; cbn [bind]; auto. destruct (@minv ROps year) as [b|]; cbn [bind]; auto.
  rops. replace (a + c - (b + c) + 1) with (a - b + 1) by ring. reflexivity.
Qed.

Lemma same_year_later : forall (ctime : list R) cy, @same_year ROps (later ctime) (cy + c) = @same_year ROps ctime cy.
Proof.
  intros. unfold same_year, later. rewrite map_map. apply map_ext. intros y. rops.
  replace (y + c - (cy + c)) with (y - cy) by ring. reflexivity.
Qed.

Lemma in_period_later : forall (year mag : list R) cy m_c,
  map2 (@in_period ROps (cy + c) m_c) (later year) mag = map2 (@in_period ROps cy m_c) year mag.
Proof.
  intros year mag cy m_c. revert mag. induction year as [|a year IH]; intros [|b mag]; cbn [later map map2]; auto.
  unfold later in IH. rewrite IH. f_equal. unfold in_period. rops. f_equal.
  destruct (Rleb cy a) eqn:E; [apply Rleb_true in E; apply Rleb_true; lra|apply Rleb_false in E; apply Rleb_false; lra].
Qed.

Lemma period_later : forall (year mag ctime cmag : list R) dmag ref cy,
  @mle_period ROps (later year) mag (later ctime) cmag dmag ref (cy + c)
  = @mle_period ROps year mag ctime cmag dmag ref cy.
Proof.
  intros. unfold mle_period. rewrite same_year_later. apply bind_both; auto. intros m_c.
  rewrite in_period_later, later_filter, later_maxv, later_minv, table_later.
  rops. destruct (@maxv ROps (mask_get _ year)) as [a|]; cbn [bind]; auto.
  destruct (@minv ROps (mask_get _ year)) as [b|]; cbn [bind]; auto.
  replace (a + c - (b + c) + 1) with (a - b + 1) by ring. reflexivity.
Qed.

Lemma loop_later : forall (year mag ctime cmag : list R) dmag ref fuel i,
  @mle_loop ROps fuel (later year) mag (later ctime) cmag dmag ref i
  = @mle_loop ROps fuel year mag ctime cmag dmag ref i.
Proof.
  intros year mag ctime cmag dmag ref. induction fuel; intros i; cbn [mle_loop]; unfold later at 1.
  - rewrite nth_error_map. rops. destruct (nth_error ctime i); auto.
  - rewrite nth_error_map. rops. destruct (nth_error ctime i) as [cy|]; cbn [option_map]; auto.
    rewrite period_later, same_year_later. apply bind_both; auto. intros p. rewrite IHfuel. auto.
Qed.

Lemma in_bin_later : forall (edges : list R) k x, (k + 1 < length edges)%nat ->
  @in_bin ROps (later edges) k (x + c) = @in_bin ROps edges k x.
Proof.
  intros edges k x L. unfold in_bin.
  assert (N : forall j, (j < length edges)%nat -> nth j (later edges) 0 = nth j edges 0 + c).
  { intros j Hj. unfold later. rewrite (nth_indep _ 0 (0 + c)). apply (map_nth (fun y => y + c)). rewrite map_length. auto. }
  rops. rewrite later_length, !N by lia. f_equal.
  - destruct (Rleb (nth k edges 0) x) eqn:E; [apply Rleb_true in E; apply Rleb_true; lra|apply Rleb_false in E; apply Rleb_false; lra].
  - destruct (Nat.eqb _ _).
    + destruct (Rleb x (nth (k + 1) edges 0)) eqn:E; [apply Rleb_true in E; apply Rleb_true; lra|apply Rleb_false in E; apply Rleb_false; lra].
    + destruct (Rltb x (nth (k + 1) edges 0)) eqn:E; [apply Rltb_true in E; apply Rltb_true; lra|apply Rltb_false in E; apply Rltb_false; lra].
Qed.

Lemma hist_later : forall (year fmag ti mi : list R),
  @histogram2d ROps (later year) fmag (later ti) mi = @histogram2d ROps year fmag ti mi.
Proof.
  intros. unfold histogram2d. rops. rewrite later_length. apply map_ext_in. intros a Ha. apply in_seq in Ha.
  apply map_ext. intros b. f_equal. revert fmag. induction year as [|y year IH]; intros [|m fmag]; cbn [later map map2]; auto.
  unfold later in IH. rewrite IH. f_equal. f_equal. apply in_bin_later. simpl in Ha. lia.
Qed.

Lemma zero_later : forall (ti mi : list R) m row,
  @zero_incomplete ROps (later ti) mi m (fst row + c, snd row) = @zero_incomplete ROps ti mi m row.
Proof.
  intros. unfold zero_incomplete. cbn [fst snd].
  assert (E : map (fun t => @ltb ROps t (fst row + c)) (later ti) = map (fun t => @ltb ROps t (fst row)) ti).
  { unfold later. rewrite map_map. apply map_ext. intros t. rops.
    destruct (Rltb t (fst row)) eqn:E; [apply Rltb_true in E; apply Rltb_true; lra|apply Rltb_false in E; apply Rltb_false; lra]. }
  rops. rewrite E. reflexivity.
Qed.

Lemma fold_later : forall (ti mi : list R) tab m,
  fold_left (@zero_incomplete ROps (later ti) mi) (later_table tab) m = fold_left (@zero_incomplete ROps ti mi) tab m.
Proof.
  intros ti mi. induction tab as [|r tab IH]; intros m; cbn [later_table map fold_left]; auto.
  rewrite zero_later. apply IH.
Qed.

Lemma tper_later : forall ymax tab mg,
  @weichert_tper ROps (ymax + c) (later_table tab) mg = @weichert_tper ROps ymax tab mg.
Proof.
  intros. unfold weichert_tper.
  assert (E : map (fun row => @ltb ROps (@sub ROps (snd row) mg) (lit 1 1000)) (later_table tab)
            = map (fun row => @ltb ROps (@sub ROps (snd row) mg) (lit 1 1000)) tab).
  { unfold later_table. rewrite map_map. reflexivity. }
  rops. rewrite E. destruct (last_opt _) as [k|].
  - unfold later_table. rewrite nth_error_map. destruct (nth_error tab k) as [r|]; cbn [option_map fst]; auto. f_equal. ring.
  - unfold later_table.
    assert (L : forall l : list (R * R), last_opt (map (fun r => (fst r + c, snd r)) l)
       = option_map (fun r => (fst r + c, snd r)) (last_opt l)).
    { induction l as [|x [|y l] IH]; auto. }
    rewrite L. destruct (last_opt tab) as [r|]; cbn [option_map fst]; auto. f_equal. ring.
Qed.

Lemma prep_later : forall (year fmag : list R) tab d_m d_t,
  @weichert_prep ROps (later year) fmag (later_table tab) d_m d_t = @weichert_prep ROps year fmag tab d_m d_t.
Proof.
  intros. unfold weichert_prep. rewrite later_maxv, later_minv.
  destruct (@minv ROps year) as [a|]; cbn [bind]; auto. destruct (@maxv ROps year) as [b|]; cbn [bind]; auto.
  apply bind_both; auto. intros mmin. apply bind_both; auto. intros mmax.
  unfold lit. rops. replace (b + c + 15 / 10 * d_t) with (b + 15 / 10 * d_t + c) by ring.
  rewrite later_arange, hist_later, fold_later. apply bind_both; auto.
  induction (seq 0 _) as [|i l IH]; cbn [mapM]; auto. rewrite tper_later. apply bind_both; auto.
  intros t. apply bind_both; auto.
Qed.

Lemma recurrence_later : forall fuel (year mag : list R) tab window alg ref twin,
  @recurrence_analysis ROps fuel (later year) mag (later_table tab) window alg ref twin
  = @recurrence_analysis ROps fuel year mag tab window alg ref twin.
Proof.
  intros. unfold recurrence_analysis. destruct (String.eqb alg "Weichert").
  - rewrite prep_later. reflexivity.
  - assert (E1 : map fst (later_table tab) = later (map fst tab)) by (unfold later_table, later; rewrite !map_map; auto).
    assert (E2 : map snd (later_table tab) = map snd tab) by (unfold later_table; rewrite !map_map; auto).
    rops. rewrite E1, E2. unfold b_maxlike_time. rewrite loop_later. rops. rewrite later_length. reflexivity.
Qed.

(** ** Cumulative moment *)

Lemma year_moment_later : forall (year mag : list R) t,
  @year_moment ROps (later year) mag (t + c) = @year_moment ROps year mag t.
Proof.
  intros. unfold year_moment, later. rewrite map_map.
  assert (E : map (fun x => @ltb ROps (@absv ROps (@sub ROps (x + c) (t + c))) (lit 1 100000)) year
     = map (fun y => @ltb ROps (@absv ROps (@sub ROps y t)) (lit 1 100000)) year).
  { apply map_ext. intros y. rops. replace (y + c - (t + c)) with (y - t) by ring. reflexivity. }
  rops. rewrite E. reflexivity.
Qed.

Lemma moment_later : forall year mag : list R, @cumulative_moment ROps (later year) mag = @cumulative_moment ROps year mag.
Proof.
  intros. unfold cumulative_moment. apply bind_both; auto. unfold moment_deviation.
  rewrite later_maxv, later_minv.
  destruct (@minv ROps year) as [a|]; cbn [bind]; auto. destruct (@maxv ROps year) as [b|]; cbn [bind]; auto.
  rops. replace (b + c + 1) with (b + 1 + c) by ring. rewrite later_arange.
  generalize (@arange ROps a (b + 1) 1). intros l.
  assert (E : @map R R (@year_moment ROps (later year) mag) (later l) = @map R R (@year_moment ROps year mag) l).
  { unfold later at 2. rewrite map_map. apply map_ext. intros. apply year_moment_later. }
  rewrite E, later_length. unfold later. rewrite map_map. reflexivity.
Qed.

Lemma maxmag_later : forall fuel (year mag sig : list R) alg tol maxit neq ns normals,
  @maximum_magnitude_analysis ROps fuel (later year) mag sig alg tol maxit neq ns normals
  = @maximum_magnitude_analysis ROps fuel year mag sig alg tol maxit neq ns normals.
Proof.
  intros. unfold maximum_magnitude_analysis. destruct (String.eqb alg "Kijko_Npg"); auto.
  destruct (String.eqb alg "Cumulative_Moment"); auto. unfold cum_mo_uncertainty. apply bind_both; auto.
  induction normals as [|z normals IH]; cbn [mapM]; auto. rewrite moment_later. apply bind_both; auto.
  intros. apply bind_both; auto.
Qed.
End Epoch.

Lemma C100_proof : forall c (year mag sig : list R) (tab : list (R * R)),
  (forall dm dt ttol iloc tab', @stepp_analysis ROps year mag dm dt ttol iloc = Ok tab' ->
     @stepp_analysis ROps (later c year) mag dm dt ttol iloc = Ok (later_table c tab')) /\
  (forall flags, @selected_eq_flag_vector ROps (later c year) mag (later_table c tab) flags
               = @selected_eq_flag_vector ROps year mag tab flags) /\
  (forall fuel window alg ref twin,
     @recurrence_analysis ROps fuel (later c year) mag (later_table c tab) window alg ref twin
     = @recurrence_analysis ROps fuel year mag tab window alg ref twin) /\
  (forall fuel alg tol maxit neq ns normals,
     @maximum_magnitude_analysis ROps fuel (later c year) mag sig alg tol maxit neq ns normals
     = @maximum_magnitude_analysis ROps fuel year mag sig alg tol maxit neq ns normals).
Proof.
  intros c year mag sig tab. split; [|split; [|split]].
  - intros dm dt ttol iloc tab' H. rewrite stepp_later, H. reflexivity.
  - intros. apply select_later.
  - intros. apply recurrence_later.
  - intros. apply maxmag_later.
Qed.
