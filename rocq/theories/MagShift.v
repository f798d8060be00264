(** Completeness and Kijko's maximum magnitude on a magnitude scale with another zero (C117). *)
From Coq Require Import Reals ZArith Bool Arith Lia Lra String List.
From Verif Require Import Base BaseFacts Ops Completeness MaxMag RFacts FrameSpec ShiftSpec OrderProofs EpochProofs ShiftProofs.
Import ListNotations.
Local Open Scope R_scope.

(** ** Selection *)

Lemma row_raised : forall c (year mw : list R) (y m : R),
  map2 (fun y0 m0 => @ltb ROps y0 y && @ltb ROps m0 (m + c))%bool year (later c mw)
  = map2 (fun y0 m0 => @ltb ROps y0 y && @ltb ROps m0 m)%bool year mw.
Proof.
  intros c. induction year as [|a year IH]; intros [|b mw] y m; cbn [later map map2]; auto.
  unfold later in IH. rewrite IH. f_equal. rops. f_equal. apply Rltb_plus.
Qed.

Lemma select_raised : forall c (year mw : list R) tab fl,
  @selected_eq_flag_vector ROps year (later c mw) (raised c tab) fl = @selected_eq_flag_vector ROps year mw tab fl.
Proof.
  intros c year mw tab fl.
  assert (E : @completeness_flag ROps year (later c mw) (raised c tab) = @completeness_flag ROps year mw tab).
  { unfold completeness_flag. generalize (repeat 0%Z (@length (@T ROps) year)).
    induction tab as [|[y m] tab IH]; intros l; cbn [raised map fold_left fst snd]; auto.
    assert (E := row_raised c year mw y m). rops. rewrite E. apply IH. }
  unfold selected_eq_flag_vector. now rewrite E.
Qed.

(** ** Stepp *)

Section Tenths.
Variable z : Z.
Let c := IZR z / 10.

Lemma round2_raised : forall mw : list R, map (@round2 ROps) (later c mw) = later c (map (@round2 ROps) mw).
Proof.
  intros mw. unfold later. rewrite !map_map. apply map_ext. intros m. unfold round2. rops.
  replace (100 * (m + c)) with (100 * m + IZR (10 * z)) by (rewrite mult_IZR; unfold c; field).
  rewrite Rrint_plus by (rewrite Z.even_mul; reflexivity). rewrite plus_IZR, mult_IZR. unfold c. field.
Qed.

Lemma mbin_raised : forall (mw : list R) dm,
  @stepp_mbin ROps (later c mw) dm = match @stepp_mbin ROps mw dm with Ok l => Ok (later c l) | Err e => Err e end.
Proof.
  intros mw dm. unfold stepp_mbin. rewrite later_minv, later_maxv.
  destruct (@minv ROps mw) as [lo|e]; cbn [bind]; auto. destruct (@maxv ROps mw) as [hi|e]; cbn [bind]; auto. rops.
  replace (10 * (lo + c)) with (10 * lo + IZR z) by (unfold c; field). replace (10 * (hi + c)) with (10 * hi + IZR z) by (unfold c; field).
  rewrite Rfloor_plus, Rceil_plus, !plus_IZR.
  replace ((IZR (Rfloor (10 * lo)) + IZR z) / 10) with (IZR (Rfloor (10 * lo)) / 10 + c) by (unfold c; field).
  replace ((IZR (Rceil (10 * hi)) + IZR z) / 10 + dm) with (IZR (Rceil (10 * hi)) / 10 + dm + c) by (unfold c; field).
  f_equal. apply later_arange.
Qed.

Lemma count_raised : forall (year mw : list R) e mbin t jj, (jj + 1 < length mbin)%nat ->
  @stepp_count ROps year (later c mw) e (later c mbin) t jj = @stepp_count ROps year mw e mbin t jj.
Proof.
  intros year mw e mbin t jj J. unfold stepp_count. cbv zeta.
  rewrite later_length, later_filter. rops. rewrite !later_nth by lia.
  generalize (mask_get (map (fun y => Rleb (e - t) y) year) mw). intros l. unfold later. rewrite !map_map.
  destruct (Nat.eqb jj _); f_equal; apply map_ext; intros m; rewrite ?Rleb_plus, ?Rltb_plus; reflexivity.
Qed.

Lemma loop_raised_s : forall (year mw : list R) e mbin tr ttol iloc bins prev, (forall j, In j bins -> (j + 1 < length mbin)%nat) ->
  @stepp_loop ROps year (later c mw) e (later c mbin) tr ttol iloc prev bins
  = @stepp_loop ROps year mw e mbin tr ttol iloc prev bins.
Proof.
  intros year mw e mbin tr ttol iloc. induction bins as [|b bins IH]; intros prev B; cbn [stepp_loop]; auto.
  assert (E : map (fun t => @stepp_count ROps year (later c mw) e (later c mbin) t b) tr
    = map (fun t => @stepp_count ROps year mw e mbin t b) tr) by (apply map_ext; intros; apply count_raised, B; now left).
  cbv zeta. rops. rewrite E. destruct (nth_error tr _); auto. rewrite IH; [reflexivity|]. intros j J. apply B. now right.
Qed.

Lemma stepp_raised : forall (year mw : list R) dm dt ttol iloc,
  @stepp_analysis ROps year (later c mw) dm dt ttol iloc
  = match @stepp_analysis ROps year mw dm dt ttol iloc with Ok tab => Ok (raised c tab) | Err e => Err e end.
Proof.
  intros. unfold stepp_analysis. cbv zeta.
  assert (E := round2_raised mw). rops. rewrite E. assert (E' := mbin_raised (map (@round2 ROps) mw) dm). rops. rewrite E'. clear E E'.
  match goal with |- bind (match ?x with Ok _ => _ | Err _ => _ end) _ = _ => destruct x as [mbin|] end; cbn [bind]; auto.
  destruct (@maxv ROps year) as [e|]; cbn [bind]; auto. destruct (@stepp_time_range ROps year dt) as [tr|]; cbn [bind]; auto.
  rops. rewrite later_length. destruct (length mbin) as [|nb] eqn:NB; auto.
  assert (E'' := loop_raised_s year (map (@round2 ROps) mw) e mbin tr ttol iloc (seq 0 nb) None). rops. rewrite E''.
  2:{ intros j J. apply in_seq in J. rewrite NB. lia. }
  clear E''. destruct (stepp_loop _ _ _ _ _ _ _ _ _) as [lens|]; cbn [bind]; auto. f_equal.
  unfold later. rewrite firstn_map. generalize (firstn nb mbin). intros bs. revert bs.
  induction lens as [|l lens IH]; intros [|b bs]; try reflexivity. cbn [map2 map raised fst snd].
  f_equal. apply IH.
Qed.
End Tenths.

(** ** Kijko *)

Section Kijko.
Variable c : R.

Lemma insert_later : forall (x : R) l, @insert ROps (x + c) (later c l) = later c (@insert ROps x l).
Proof.
  intros x. induction l as [|y l IH]; cbn [insert later map]; auto. rops. rewrite Rleb_plus. destruct (Rleb x y); auto.
  cbn [map]. f_equal. exact IH.
Qed.
Lemma sortv_later : forall l : list R, @sortv ROps (later c l) = later c (@sortv ROps l).
Proof. induction l as [|x l IH]; auto. cbn [sortv later map]. unfold later in IH. rewrite IH. apply insert_later. Qed.

Lemma sortv_length : forall l : list R, length (@sortv ROps l) = length l.
Proof.
  assert (I : forall (x : R) l, length (@insert ROps x l) = S (length l)).
  { intros x. induction l as [|y l IH]; cbn [insert length]; auto. destruct (@leb ROps x y); cbn [length]; auto. }
  induction l as [|x l IH]; auto. cbn [sortv length]. rewrite I. now rewrite IH.
Qed.

Lemma quantile_later : forall (l : list R) p, l <> [] -> @mquantile ROps (later c l) p = @mquantile ROps l p + c.
Proof.
  intros l p N. unfold mquantile. rewrite sortv_later. assert (L := sortv_length l).
  destruct (@sortv ROps l) as [|a [|b s]] eqn:E.
  - destruct l; [contradiction|discriminate].
  - reflexivity.
  - set (x := a :: b :: s) in *.
    cbv zeta. rewrite later_length. set (k := Z.to_nat _).
    assert (K : (k < length x)%nat).
    { unfold k. cbn [length x]. rops. rewrite ofnat_R. unfold clip. rops. rewrite Rtrunc_IZR.
      set (n := INR (S (S (length s)))). set (al := n * p + _).
      assert (H : n = IZR (Z.of_nat (S (S (length s))))) by (unfold n; apply INR_IZR_INZ).
      assert (F : forall y, y <= n - 1 -> (Z.to_nat (Rfloor y) < S (S (length s)))%nat).
      { intros y Y. assert (Q := Rfloor_spec y). assert (Rfloor y < Z.of_nat (S (S (length s))))%Z by (apply lt_IZR; lra). lia. }
      assert (n >= 2) by (unfold n; rewrite !S_INR; assert (Q := pos_INR (length s)); lra).
      destruct (Rltb al 1) eqn:E1; [apply F; lra|]. destruct (Rltb (n - 1) al) eqn:E2; [apply F; lra|]. apply Rltb_false in E2. apply F. lra. }
    rops. assert (K' : (k - 1 < length x)%nat) by lia. rewrite (later_nth c x k K), (later_nth c x (k - 1) K').
    match goal with |- context [clip ?u ?v ?w] => generalize (@clip ROps u v w) end. intros g. rops.
    transitivity ((1 - g) * (nth (k - 1) x 0 + c) + g * (nth k x 0 + c)); [reflexivity|ring].
Qed.

Lemma h_smooth_later : forall l : list R, @h_smooth ROps (later c l) = @h_smooth ROps l.
Proof.
  intros [|a l]; auto. unfold h_smooth. rewrite !quantile_later by discriminate. rewrite later_length. rops.
  match goal with |- context [?x + c - (?y + c)] => replace (x + c - (y + c)) with (x - y) by ring end. reflexivity.
Qed.

Lemma points_later : forall (lo hi : R) n, @exp_spaced_points ROps (lo + c) (hi + c) n = later c (@exp_spaced_points ROps lo hi n).
Proof.
  intros lo hi n. unfold exp_spaced_points, later. rewrite !map_app, !map_map. cbn [map]. rops. f_equal; [|f_equal; rewrite !ln_exp; reflexivity].
  apply map_ext_in. intros i I. rewrite ofnat_R in *. apply arange_in in I; [|lra]. destruct I as (k & E & L).
  assert (P : 0 <= i) by (rewrite E; assert (Q := pos_INR k); lra).
  set (d := INR n - 1) in *.
  assert (X : 0 < exp lo + i * ((exp hi - exp lo) / d)).
  { replace (exp lo + i * ((exp hi - exp lo) / d)) with ((1 - i / d) * exp lo + i / d * exp hi) by (field; lra).
    assert (0 < 1 - i / d). { assert (i / d < 1); [|lra]. apply Rmult_lt_reg_r with d; [lra|]. replace (i / d * d) with i by (field; lra). lra. }
    assert (0 <= i / d). { apply Rmult_le_reg_r with d; [lra|]. replace (i / d * d) with i by (field; lra). lra. }
    assert (A := exp_pos lo). assert (B := exp_pos hi).
    assert (0 < (1 - i / d) * exp lo) by (apply Rmult_lt_0_compat; lra). assert (0 <= i / d * exp hi) by (apply Rmult_le_pos; lra). lra. }
  replace (exp (lo + c) + i * ((exp (hi + c) - exp (lo + c)) / d)) with ((exp lo + i * ((exp hi - exp lo) / d)) * exp c) by (rewrite !exp_plus; field; lra).
  rewrite ln_mult by (auto using exp_pos). now rewrite ln_exp.
Qed.

Lemma cdf_later : forall (mn mx : R) mag h n t, @kijko_cdf ROps (mn + c) (mx + c) (later c mag) h n (t + c) = @kijko_cdf ROps mn mx mag h n t.
Proof.
  intros. unfold kijko_cdf, later. rewrite !map_map. rops.
  assert (E : forall x : R, map (fun m => (x + c - (m + c)) / h) mag = map (fun m => (x - m) / h) mag).
  { intros x. apply map_ext. intros m. replace (x + c - (m + c)) with (x - m) by ring. reflexivity. }
  rewrite !E. reflexivity.
Qed.

Lemma integ_later : forall (mval cdf : list R) acc prev, @integ_from ROps acc (prev + c) (later c mval) cdf = @integ_from ROps acc prev mval cdf.
Proof.
  induction mval as [|m [|m' mval] IH]; intros [|x cdf] acc prev; auto. cbn [later map] in *. cbn [integ_from] in *. rops.
  replace (m' + c - (prev + c)) with (m' - prev) by ring. apply IH.
Qed.

Lemma integrate_later : forall mval cdf : list R, @integrate ROps (later c mval) cdf = @integrate ROps mval cdf.
Proof.
  intros [|m [|m' mval]] [|x cdf]; auto. 
  assert (A := integ_later (m' :: mval) cdf). unfold integrate. 
  assert (L : length (later c (m :: m' :: mval)) = length (m :: m' :: mval)) by apply later_length.
  assert (N1 := later_nth c (m :: m' :: mval) (length (m :: m' :: mval) - 1)%nat ltac:(cbn; lia)).
  assert (N2 := later_nth c (m :: m' :: mval) (length (m :: m' :: mval) - 2)%nat ltac:(cbn; lia)).
  cbn [later map] in *. cbv zeta. rops. rewrite L, N1, N2, A. replace (m' + c - (m + c)) with (m' - m) by ring.
  match goal with |- Ok (?p + ?q * (?u + c - (?v + c))) = _ => replace (u + c - (v + c)) with (u - v) by ring end. reflexivity.
Qed.

Lemma delta_later : forall (mn mx : R) ns mag h n,
  @kijko_delta ROps (mn + c) ns (later c mag) h n (mx + c) = @kijko_delta ROps mn ns mag h n mx.
Proof.
  intros. unfold kijko_delta, kijko_npg_intfunc_simps. rewrite points_later, later_minv, later_maxv.
  destruct (@minv ROps _) as [a|]; cbn [bind]; auto. destruct (@maxv ROps _) as [b|]; cbn [bind]; auto.
  assert (E : map (@kijko_cdf ROps (a + c) (b + c) (later c mag) h n) (later c (@exp_spaced_points ROps mn mx ns)) = map (@kijko_cdf ROps a b mag h n) (@exp_spaced_points ROps mn mx ns)).
  { unfold later at 2. rewrite map_map. apply map_ext. intros t. apply cdf_later. }
  rops. rewrite E. apply integrate_later.
Qed.

Lemma loop_later_k : forall fuel (f g : R -> res R) (o tol : R) maxit dt (m : R) d j, (forall x, g (x + c) = f x) ->
  @kijko_loop ROps fuel g (o + c) tol maxit dt (m + c) d j
  = match @kijko_loop ROps fuel f o tol maxit dt m d j with Ok (m', d', j') => Ok (m' + c, d', j') | Err e => Err e end.
Proof.
  induction fuel as [|fuel IH]; intros f g o tol maxit dt m d j H; cbn [kijko_loop].
  - rops. destruct (Rltb tol dt); auto.
  - rops. destruct (Rltb tol dt); auto. rewrite H. destruct (f m) as [x|]; cbn [bind]; auto.
    cbv zeta. replace (o + c + x - (m + c)) with (o + x - m) by ring. replace (o + c + x) with (o + x + c) by ring. apply (IH f g o tol). exact H.
Qed.

Lemma argmax_later : forall (mag sig : list R) b s, @argmax_from ROps (b + c) s (later c mag) sig
  = let (m, s') := @argmax_from ROps b s mag sig in (m + c, s').
Proof.
  induction mag as [|m mag IH]; intros [|t sig] b s; auto. cbn [later map argmax_from]. rops. rewrite Rltb_plus.
  unfold later in IH. destruct (Rltb b m); apply IH.
Qed.

Lemma largest_later : forall (mag : list R) n, @largest ROps (later c mag) n = let (l, k) := @largest ROps mag n in (later c l, k).
Proof.
  intros. unfold largest. rewrite later_length. destruct (Nat.leb _ n); auto. cbv zeta. rewrite sortv_later, later_length.
  destruct n; auto. unfold later. rewrite skipn_map. reflexivity.
Qed.

Lemma kijko_later : forall fuel (mag sig : list R) neq ns tol maxit mo,
  @kijko_nonparametric_gauss ROps fuel (later c mag) sig neq ns tol maxit (option_map (fun p => (fst p + c, snd p)) mo)
  = match @kijko_nonparametric_gauss ROps fuel mag sig neq ns tol maxit mo with Ok (m, s) => Ok (m + c, s) | Err e => Err e end.
Proof.
  intros. unfold kijko_nonparametric_gauss.
  assert (O : @observed_max ROps (later c mag) sig (option_map (fun p : R * R => (fst p + c, snd p)) mo)
              = match @observed_max ROps mag sig mo with Ok (m, s) => Ok (m + c, s) | Err e => Err e end).
  { unfold observed_max. destruct mo as [(om, os)|]; auto. cbn [option_map]. destruct mag as [|m mag]; auto. destruct sig as [|s sig]; auto.
    cbn [later map]. f_equal. assert (A := argmax_later mag sig m s). unfold later in A. rops. rewrite A.
    destruct (@argmax_from ROps m s mag sig). reflexivity. }
  rops. rewrite O. destruct (@observed_max ROps mag sig mo) as [(om, os)|]; cbn [bind]; auto.
  rewrite largest_later. destruct (@largest ROps mag neq) as (l, k). rewrite later_minv. destruct (@minv ROps l) as [mn|]; cbn [bind]; auto.
  rewrite h_smooth_later.
  assert (E := loop_later_k fuel (@kijko_delta ROps mn ns l (@h_smooth ROps l) k) (@kijko_delta ROps (mn + c) ns (later c l) (@h_smooth ROps l) k) om tol maxit 100000000 om None 0).
  rops. rewrite E by (intros; apply delta_later).
  clear E. match goal with |- context [kijko_loop ?a ?b ?x ?y ?z ?u ?v ?w ?q] => destruct (@kijko_loop ROps a b x y z u v w q) as [((m, [d|]), j)|] end; cbn [bind]; auto.
Qed.
End Kijko.

Lemma C117_kijko_proof : forall c fuel (year mag sig : list R) tol maxit neq ns normals m s,
  @maximum_magnitude_analysis ROps fuel year mag sig "Kijko_Npg" tol maxit neq ns normals = Ok (m, s) ->
  @maximum_magnitude_analysis ROps fuel year (later c mag) sig "Kijko_Npg" tol maxit neq ns normals = Ok (m + c, s).
Proof.
  intros c fuel year mag sig tol maxit neq ns normals m s H. unfold maximum_magnitude_analysis in *. rewrite String.eqb_refl in *.
  assert (E := kijko_later c fuel mag sig neq ns tol maxit None). cbn [option_map] in E. rops. rewrite E, H. reflexivity.
Qed.

Lemma C117_proof : forall (year mag sig : list R) (tab : list (R * R)),
  (forall c flags, @selected_eq_flag_vector ROps year (later c mag) (raised c tab) flags
                 = @selected_eq_flag_vector ROps year mag tab flags) /\
  (forall z dm dt ttol iloc, let c := IZR z / 10 in
     @stepp_analysis ROps year (later c mag) dm dt ttol iloc
     = match @stepp_analysis ROps year mag dm dt ttol iloc with Ok t => Ok (raised c t) | Err e => Err e end) /\
  (forall c fuel tol maxit neq ns normals m s,
     @maximum_magnitude_analysis ROps fuel year mag sig "Kijko_Npg" tol maxit neq ns normals = Ok (m, s) ->
     @maximum_magnitude_analysis ROps fuel year (later c mag) sig "Kijko_Npg" tol maxit neq ns normals = Ok (m + c, s)).
Proof.
  intros year mag sig tab. split; [|split].
  - intros. apply select_raised.
  - intros. apply stepp_raised.
  - intros c. intros. now apply C117_kijko_proof.
Qed.
