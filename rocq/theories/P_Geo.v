(** Properties C26-C29: declustering windows (declustering.py:65-151), decimal year,
    haversine distance and Julian day (catalogue_utilities.py). *)
From Coq Require Import ZArith List Bool Arith Lia Reals Lra.
From Verif Require Import Base Ops BaseFacts RFacts CatUtil Decluster CalendarSpec GeoProofs.
Import ListNotations.
Local Open Scope R_scope.

(** C26 is false for the Gardner-Knopoff time window: it drops at magnitude 6.5. *)
Theorem C26_windows_grow_refuted : exists m m', 0 <= m < m' /\
  snd (@gk_window ROps m') < snd (@gk_window ROps m).
Proof. exact C26_refuted_proof. Qed.
Print Assumptions C26_windows_grow_refuted.

(** All of C26 except for that drop: every window is positive, every distance window grows,
    every time window grows except between Gardner-Knopoff magnitudes on different sides of
    6.5. *)
Theorem C26_windows_grow_partial : forall w f m m',
  @window_calc ROps w = Ok f -> 0 <= m -> m <= m' ->
  0 < fst (f m) /\ 0 < snd (f m) /\ fst (f m) <= fst (f m') /\
  (w <> TDW_GARDNERKNOPOFF \/ m' < 65/10 \/ 65/10 <= m -> snd (f m) <= snd (f m')).
Proof. exact C26_partial_proof. Qed.
Print Assumptions C26_windows_grow_partial.

(** The hypotheses hold for two different magnitudes on both sides of 6.5. *)
Example C26_case : exists f, @window_calc ROps TDW_GRUENTHAL = Ok f /\ 0 <= 5 /\ 5 <= 7 /\
  TDW_GRUENTHAL <> TDW_GARDNERKNOPOFF.
Proof. eexists. split; [reflexivity|]. split; [lra|]. split; [lra|discriminate]. Qed.

(** C27: the decimal year of a date lies in its year. *)
Theorem C27_decimal_year_in_year : forall y m d, (1 <= m <= 12)%Z -> (1 <= d <= 31)%Z ->
  exists x, @decimal_year1 ROps (IZR y) (IZR m) (IZR d) = Ok x /\ IZR y <= x < IZR y + 1.
Proof. exact C27_range. Qed.
Print Assumptions C27_decimal_year_in_year.

(** C27: later dates get later decimal years; only 29 February ties with 1 March. *)
Theorem C27_decimal_year_order : forall y m d y' m' d' x x',
  valid_date y m d -> valid_date y' m' d' -> date_lt y m d y' m' d' ->
  @decimal_year1 ROps (IZR y) (IZR m) (IZR d) = Ok x ->
  @decimal_year1 ROps (IZR y') (IZR m') (IZR d') = Ok x' ->
  x <= x' /\ ((m <> 2 \/ d <> 29)%Z -> x < x').
Proof. exact C27_order. Qed.
Print Assumptions C27_decimal_year_order.

(** C27 for a whole catalogue, as the declustering code calls it. *)
Theorem C27_catalogue : forall cat : list (event ROps),
  (forall e, In e cat -> exists y m d, valid_date y m d /\
     ev_year e = IZR y /\ ev_month e = IZR m /\ ev_day e = IZR d) ->
  exists years, decimal_year cat = Ok years /\ length years = length cat /\
    forall k e x y m d, nth_error cat k = Some e -> nth_error years k = Some x ->
      ev_year e = IZR y -> ev_month e = IZR m -> ev_day e = IZR d -> valid_date y m d ->
      IZR y <= x < IZR y + 1 /\
      forall k' e' x' y' m' d', nth_error cat k' = Some e' -> nth_error years k' = Some x' ->
        ev_year e' = IZR y' -> ev_month e' = IZR m' -> ev_day e' = IZR d' -> valid_date y' m' d' ->
        date_lt y m d y' m' d' -> x <= x' /\ ((m <> 2 \/ d <> 29)%Z -> x < x').
Proof. exact C27_catalogue_proof. Qed.
Print Assumptions C27_catalogue.

Example C27_catalogue_case : let e := mkEvent (AR := ROps) 1996 2 28 0 0 5 0 in
  let e' := mkEvent (AR := ROps) 1996 12 31 0 0 6 0 in
  (forall x, In x [e; e'] -> exists y m d, valid_date y m d /\
     ev_year x = IZR y /\ ev_month x = IZR m /\ ev_day x = IZR d) /\
  date_lt 1996 2 28 1996 12 31.
Proof.
  split.
  - intros x [<-|[<-|[]]]; [exists 1996%Z, 2%Z, 28%Z|exists 1996%Z, 12%Z, 31%Z]; repeat split; cbn; lia.
  - right. split; auto. left. lia.
Qed.

Example C27_case : valid_date 1996 2 29 /\ valid_date 1996 3 1 /\ date_lt 1996 2 29 1996 3 1 /\
  @decimal_year1 ROps 1996 2 29 = @decimal_year1 ROps 1996 3 1 /\
  @decimal_year1 ROps 1990 12 31 = Ok (1990 + 364/365).
Proof.
  split. { split; cbn; lia. } split. { split; cbn; lia. }
  split. { right. split; auto. left. lia. }
  split. apply C27_tie.
  rewrite (decimal_year_value _ 12) by lia. days_calc. f_equal. lra.
Qed.

(** C28: shape of the distance matrix and value of each entry (law of cosines); any
    latitudes, so in particular those in [-90,90]. *)
Theorem C28_haversine : forall (set1 set2 : list (R * R)) (erad : R), 0 <= erad ->
  let m := @haversine ROps set1 set2 false erad in
  length m = length set1 /\
  (forall row, In row m -> length row = length set2) /\
  (forall i j lon1 lat1 lon2 lat2 row,
     nth_error set1 i = Some (lon1, lat1) -> nth_error set2 j = Some (lon2, lat2) ->
     nth_error m i = Some row ->
     exists x, nth_error row j = Some x /\
       0 <= x <= PI * erad /\
       (forall k, k = PI / 180 ->
        x = erad * acos (sin (k * lat1) * sin (k * lat2)
                         + cos (k * lat1) * cos (k * lat2) * cos (k * (lon1 - lon2)))) /\
       ((lon1, lat1) = (lon2, lat2) -> x = 0)).
Proof. exact C28_proof. Qed.
Print Assumptions C28_haversine.

(** C28: swapping the two sets transposes the matrix. *)
Theorem C28_haversine_symmetric : forall (set1 set2 : list (R * R)) (erad : R) i j r1 r2 x y,
  nth_error (@haversine ROps set1 set2 false erad) i = Some r1 -> nth_error r1 j = Some x ->
  nth_error (@haversine ROps set2 set1 false erad) j = Some r2 -> nth_error r2 i = Some y ->
  x = y.
Proof. exact C28_symmetric. Qed.
Print Assumptions C28_haversine_symmetric.

(** C28: the distances of the declustering code, with its earth radius of 6371.227 km. *)
Theorem C28_default : forall (rows : list (event ROps)) (e : event ROps),
  haversine_col rows e = map (fun r : event ROps => let k := PI / 180 in
    6371227 / 1000 * acos (sin (k * ev_lat r) * sin (k * ev_lat e)
      + cos (k * ev_lat r) * cos (k * ev_lat e) * cos (k * (ev_lon r - ev_lon e)))) rows.
Proof. exact C28_default_proof. Qed.
Print Assumptions C28_default.

(** A quarter of the equator. *)
Example C28_case : @haversine ROps [(90, 0)] [(0, 0); (90, 0)] false 6371
  = [[6371 * (PI / 2); 0]].
Proof.
  unfold haversine. cbn [map fst snd]. rewrite hav_equator by lra. rewrite hav_self.
  replace (PI / 180 * (90 - 0)) with (PI / 2) by field. reflexivity.
Qed.

(** C76: the distance satisfies the triangle inequality. *)
Theorem C76_haversine_triangle : forall erad lon1 lat1 lon2 lat2 lon3 lat3, 0 <= erad ->
  @haversine1 ROps false erad lon1 lat1 lon3 lat3
  <= @haversine1 ROps false erad lon1 lat1 lon2 lat2 + @haversine1 ROps false erad lon2 lat2 lon3 lat3.
Proof. exact hav_triangle. Qed.
Print Assumptions C76_haversine_triangle.

(** It is strict going round the corner of an octant: three quarter circles. *)
Example C76_case :
  @haversine1 ROps false 1 0 0 90 0 = PI / 2 /\ @haversine1 ROps false 1 90 0 0 90 = PI / 2.
Proof.
  split.
  - rewrite hav_sym, hav_equator by lra. lra.
  - rewrite C28_formula. replace (PI / 180 * 90) with (PI / 2) by lra.
    rewrite cos_PI2, sin_PI2, !Rmult_0_r, sin_0, !Rmult_0_l, Rplus_0_r, acos_0. lra.
Qed.

(** C29 is false: 28 February 1900 and 1 March 1900 are numbered two apart. *)
Theorem C29_consecutive_days_refuted : exists y m d, valid_date y m d /\
  let '(y', m', d') := next_day y m d in
  @greg2julian ROps (IZR y') (IZR m') (IZR d') 0 0 0
  = @greg2julian ROps (IZR y) (IZR m) (IZR d) 0 0 0 + 2.
Proof. exact C29_refuted_proof. Qed.
Print Assumptions C29_consecutive_days_refuted.

(** Exact value for every date and time of day: the day count plus 1721424.5, one too many
    in the months listed by [jd_off]. *)
Theorem C29_julian_day_value : forall y m d h mi s, (1 <= m <= 12)%Z ->
  @greg2julian ROps (IZR y) (IZR m) (IZR d) h mi s
  = IZR (ordinal y m d) + 17214245/10 + IZR (jd_off y m) + (h + mi / 60 + s / 3600) / 24.
Proof. exact C29_exact_proof. Qed.
Print Assumptions C29_julian_day_value.

(** C29 holds between days that are both outside or both inside those months.  Missing
    compared with C29: the first and last day of such a run of months. *)
Theorem C29_consecutive_days_partial : forall y m d h mi s, valid_date y m d ->
  let '(y', m', d') := next_day y m d in
  jd_off y m = jd_off y' m' ->
  @greg2julian ROps (IZR y') (IZR m') (IZR d') h mi s
  = @greg2julian ROps (IZR y) (IZR m) (IZR d) h mi s + 1.
Proof. exact C29_partial_proof. Qed.
Print Assumptions C29_consecutive_days_partial.

(** The day count used above does count days. *)
Theorem C29_ordinal_counts_days : forall y m d, valid_date y m d ->
  let '(y', m', d') := next_day y m d in
  valid_date y' m' d' /\ ordinal y' m' d' = (ordinal y m d + 1)%Z.
Proof. exact ordinal_next. Qed.
Print Assumptions C29_ordinal_counts_days.

Example C29_case : valid_date 2000 2 29 /\ next_day 2000 2 29 = (2000, 3, 1)%Z /\
  jd_off 2000 2 = jd_off 2000 3 /\ ordinal 1 1 1 = 1%Z /\ ordinal 2000 1 1 = 730120%Z.
Proof. split. { split; cbn; lia. } repeat split; reflexivity. Qed.
