(** Model of mtoolkit/scientific/recurrence.py. *)
From Coq Require Import ZArith List Bool Arith String.
From Coq Require Import List.
From Verif Require Import Base Ops.
Import ListNotations.
Local Open Scope num_scope.
Local Open Scope res_scope.

Section Recurrence.
Context {AR : Ops}.

(** Is x in bin k of the given edges?  numpy.histogram / histogram2d: half-open bins, the
    last one closed (recurrence.py:119,278). *)
Definition in_bin (edges : list T) (k : nat) (x : T) : bool :=
  let lo := nth k edges (ofZ 0) in
  let hi := nth (k + 1) edges (ofZ 0) in
  (lo <=? x) && (if Nat.eqb (k + 2) (length edges) then x <=? hi else x <? hi).

(** np.histogram(x, edges)[0], recurrence.py:119.  (Edges increase, since they come from
    np.arange with a positive step; numpy raises otherwise.) *)
Definition histogram (xs edges : list T) : list nat :=
  map (fun k => count_true (map (in_bin edges k) xs)) (seq 0 (length edges - 1)).

(** One row of the table of recurrence.py:132-133. *)
Record rec_row : Type := mkRec {
  rc_mag : T; rc_n : T; rc_cum : T; rc_n_annual : T; rc_cum_annual : T }.

(** n_c of recurrence.py:122-126. *)
Fixpoint suffix_sums (l : list nat) : list nat :=
  match l with [] => [] | _ :: l' => list_sum l :: suffix_sums l' end.

(** The edges of recurrence.py:114-116. *)
Definition rec_mag_range (mag : list T) (dmag : T) : res (list T) :=
  let* upper_m := maxv (map (fun m => ceilv (ofZ 10 * m) / ofZ 10) mag) in
  let* lower_m := minv (map (fun m => floorv (ofZ 10 * m) / ofZ 10) mag) in
  Ok (arange lower_m (upper_m + (ofZ 2 * dmag)) dmag).

(** recurrence_table, recurrence.py:92-135. *)
Definition recurrence_table (mag : list T) (dmag : T) (year : list T) : res (list rec_row) :=
  let* ymax := maxv year in
  let* ymin := minv year in
  let num_year := ymax - ymin + ofZ 1 in
  let* mag_range := rec_mag_range mag dmag in
  let mval := map (fun m => m + (dmag / ofZ 2)) (removelast mag_range) in
  let number_obs := histogram mag mag_range in
  let n_c := suffix_sums number_obs in
  Ok (map2 (fun m nc =>
        mkRec m (ofnat (fst nc)) (ofnat (snd nc))
              (ofnat (fst nc) / num_year) (ofnat (snd nc) / num_year))
      mval (combine number_obs n_c)).

(** b_max_likelihood, recurrence.py:138-171: (bval, sigma_b). *)
Definition b_max_likelihood (mval number_obs : list T) (dmag m_c : T) : res (T * T) :=
  let id0 := map (fun m => m >=? m_c) mval in
  let mval := mask_get id0 mval in
  let number_obs := mask_get id0 number_obs in
  let neq := sumv number_obs in
  let* m_min := minv mval in
  let m_ave := sumv (map2 mul mval number_obs) / neq in
  let bval := log10v (expv (ofZ 1)) / (m_ave - m_min + (dmag / ofZ 2)) in
  let s := sumv (map2 mul number_obs (map (fun m => sq (m - m_ave)) mval))
           / (neq * (neq - ofZ 1)) in
  let sigma_b := lit 23 10 * sq bval * sqrtv s in
  Ok (bval, sigma_b).

(** One period of b_maxlike_time: number of events and (bval, sigma_b, rate, sigrate). *)
Record period : Type := mkPeriod {
  pd_n : nat; pd_b : T; pd_sb : T; pd_rate : T; pd_sigrate : T }.

(** mag_eq_tolerance of recurrence.py:198. *)
Definition mag_eq_tolerance : T := lit 1 100000.

(** id0 of recurrence.py:200: the completeness rows sharing the year of row ival. *)
Definition same_year (ctime : list T) (cy : T) : list bool :=
  map (fun c => absv (c - cy) <? mag_eq_tolerance) ctime.

(** id1 of recurrence.py:206-207. *)
Definition in_period (cy m_c : T) (y m : T) : bool :=
  (y >=? cy) && (m >=? (m_c - mag_eq_tolerance)).

(** Body of the loop of b_maxlike_time, recurrence.py:200-222. *)
Definition mle_period (year mag ctime cmag : list T) (dmag ref_mag : T) (cy : T)
  : res period :=
  let id0 := same_year ctime cy in
  let* m_c := minv (mask_get id0 cmag) in
  let id1 := map2 (in_period cy m_c) year mag in
  let* ymax := maxv (mask_get id1 year) in
  let* ymin := minv (mask_get id1 year) in
  let nyr := ymax - ymin + ofZ 1 in
  let* tab := recurrence_table (mask_get id1 mag) dmag (mask_get id1 year) in
  let* (bval, sigma_b) := b_max_likelihood (map rc_mag tab) (map rc_n tab) dmag m_c in
  let n := ofnat (count_true id1) in
  let aval := log10v (n / nyr) + bval * m_c in
  let sigma_a := absv (log10v (n / nyr) + (bval + sigma_b) * ref_mag - aval) in
  let rate := powv (ofZ 10) (aval - bval * ref_mag) in
  let sigrate := powv (ofZ 10) ((aval + sigma_a) - (bval * ref_mag) - log10v rate) in
  Ok (mkPeriod (count_true id1) bval sigma_b rate sigrate).

(** The loop of recurrence.py:197-231: ival advances by the number of rows sharing the
    current year.  The stride is at least 1 whenever the body succeeds, so the number of
    rows is enough fuel. *)
Fixpoint mle_loop (fuel : nat) (year mag ctime cmag : list T) (dmag ref_mag : T)
    (ival : nat) : res (list period) :=
  match nth_error ctime ival with
  | None => Ok []
  | Some cy =>
      match fuel with
      | 0%nat => Err OutOfFuel
      | S fuel' =>
          let* p := mle_period year mag ctime cmag dmag ref_mag cy in
          let* rest := mle_loop fuel' year mag ctime cmag dmag ref_mag
                                (ival + count_true (same_year ctime cy))%nat in
          Ok (p :: rest)
      end
  end.

(** b_maxlike_time, recurrence.py:174-246: (b, sigma_b, a, sigma_a).  With an empty table
    neq is unbound (line 235): UnboundLocalError, a NameError. *)
Definition b_maxlike_time (year mag ctime cmag : list T) (dmag ref_mag : T)
  : res (T * T * T * T) :=
  let* ps := mle_loop (length ctime) year mag ctime cmag dmag ref_mag 0 in
  match ps with
  | [] => Err NameError
  | _ =>
      let total := ofnat (list_sum (map pd_n ps)) in
      let w := map (fun p => ofnat (pd_n p) / total) ps in
      Ok (sumv (map2 mul w (map pd_b ps)), sumv (map2 mul w (map pd_sb ps)),
          sumv (map2 mul w (map pd_rate ps)), sumv (map2 mul w (map pd_sigrate ps)))
  end.

(** np.around(x, decimals=1), recurrence.py:276. *)
Definition round1 (x : T) : T := rintv (x * ofZ 10) / ofZ 10.

(** np.histogram2d(year, fmag, bins=[time_int, mag_int])[0], recurrence.py:278-279. *)
Definition histogram2d (year fmag time_int mag_int : list T) : list (list nat) :=
  map (fun a => map (fun b =>
        count_true (map2 (fun y m => in_bin time_int a y && in_bin mag_int b m) year fmag))
      (seq 0 (length mag_int - 1))) (seq 0 (length time_int - 1)).

(** fullcount1[:r, :c] = 0, recurrence.py:292. *)
Definition zero_corner (r c : nat) (m : list (list nat)) : list (list nat) :=
  map2 (fun a row =>
      if Nat.ltb a r
      then map2 (fun b n => if Nat.ltb b c then 0%nat else n) (seq 0 (length row)) row
      else row) (seq 0 (length m)) m.

(** One pass of the loop of recurrence.py:286-293 for a completeness row. *)
Definition zero_incomplete (time_int mag_int : list T) (m : list (list nat)) (row : T * T)
  : list (list nat) :=
  let idx := nonzero (map (fun t => t <? fst row) time_int) in
  let idy := nonzero (map (fun g => g <? snd row) mag_int) in
  match last_opt idx, last_opt idy with
  | Some x, Some y => zero_corner (x + 1) (y + 1) m
  | _, _ => m
  end.

(** cent_mag of recurrence.py:282. *)
Fixpoint centres (l : list T) : list T :=
  match l with
  | x :: ((y :: _) as l') => ((x + y) / ofZ 2) :: centres l'
  | _ => []
  end.

(** t_per[i] of recurrence.py:301-306. *)
Definition weichert_tper (ymax : T) (table : list (T * T)) (mg : T) : res T :=
  let dummy1 := nonzero (map (fun row => (snd row - mg) <? lit 1 1000) table) in
  match last_opt dummy1 with
  | Some k => match nth_error table k with
              | Some row => Ok (ymax - fst row + ofZ 1)
              | None => Err IndexError
              end
  | None => match last_opt table with
            | Some row => Ok (ymax - fst row + ofZ 1)
            | None => Err IndexError
            end
  end.

(** weichert_prep, recurrence.py:249-312: (cent_mag, t_per, n_obs).  ctime and cmag are
    the columns of one table (their lengths agree, so the check of lines 270-272 passes). *)
Definition weichert_prep (year fmag : list T) (table : list (T * T)) (d_m d_t : T)
  : res (list T * list T * list nat) :=
  let* ymin := minv year in
  let* ymax := maxv year in
  let time_int := arange ymin (ymax + lit 15 10 * d_t) d_t in
  let fmag := map round1 fmag in
  let* mmin := minv fmag in
  let* mmax := maxv fmag in
  let mag_int := arange mmin (mmax + lit 15 10 * d_m) d_m in
  let full := histogram2d year fmag time_int mag_int in
  let full := fold_left (zero_incomplete time_int mag_int) table full in
  let cent_mag := centres mag_int in
  let n_y := (length mag_int - 1)%nat in
  let n_obs := map (fun i => list_sum (map (fun row => nth i row 0%nat) full)) (seq 0 n_y) in
  let* t_per := mapM (fun i => weichert_tper ymax table (nth i mag_int (ofZ 0))) (seq 0 n_y) in
  Ok (cent_mag, t_per, n_obs).

(** The quantities of one Newton pass, recurrence.py:338-350: (dldb, d2ldb2, sumexp/sumtex,
    nkount). *)
Definition weichert_sums (tper fmag nobs : list T) (beta : T) : T * T * T * T :=
  let snm := sumv (map2 mul nobs fmag) in
  let nkount := sumv nobs in
  let tjexp := map2 mul tper (map (fun m => expv (neg beta * m)) fmag) in
  let tmexp := map2 mul tjexp fmag in
  let sumexp := sumv (map (fun m => expv (neg beta * m)) fmag) in
  let stmex := sumv tmexp in
  let sumtex := sumv tjexp in
  let stm2x := sumv (map2 mul fmag tmexp) in
  let dldb := stmex / sumtex in
  let d2ldb2 := nkount * (sq dldb - stm2x / sumtex) in
  let dldb := dldb * nkount - snm in
  (dldb, d2ldb2, sumexp / sumtex, nkount).

(** The while loop of weichert, recurrence.py:337-368.  There is no iteration limit in the
    code; fuel stands for the number of passes and OutOfFuel means "still looping". *)
Fixpoint weichert_loop (fuel : nat) (tper fmag nobs : list T) (m0 : T) (mrate beta itstab : T)
  : res (T * T * T * T) :=
  match fuel with
  | 0%nat => Err OutOfFuel
  | S fuel' =>
      let '(dldb, d2ldb2, ratio, nkount) := weichert_sums tper fmag nobs beta in
      let betl := beta in
      let beta := beta - dldb / d2ldb2 in
      let sigbeta := sqrtv (neg (ofZ 1) / d2ldb2) in
      let bval := beta / lnv (ofZ 10) in
      let sigb := sigbeta / lnv (ofZ 10) in
      let fngtm0 := nkount * ratio in
      let fn0 := fngtm0 * expv (neg beta * m0) in
      let stdfn0 := fn0 / sqrtv nkount in
      if absv (beta - betl) <=? itstab then
        if mrate =? ofZ 0 then Ok (bval, sigb, fngtm0, stdfn0)
        else let a_m := fngtm0 * expv (neg beta * (mrate - m0)) in
             Ok (bval, sigb, a_m, a_m / sqrtv nkount)
      else weichert_loop fuel' tper fmag nobs m0 mrate beta itstab
  end.

(** weichert, recurrence.py:315-369, with explicit fuel; fmag[1] raises IndexError for
    fewer than two magnitudes (line 335).  m0 is fmag[0] - d_m/2 (lines 355,364). *)
Definition weichert (fuel : nat) (tper fmag nobs : list T) (mrate beta itstab : T)
  : res (T * T * T * T) :=
  match fmag with
  | f0 :: f1 :: _ =>
      let d_m := f1 - f0 in
      weichert_loop fuel tper fmag nobs (f0 - d_m / ofZ 2) mrate beta itstab
  | _ => Err IndexError
  end.

(** recurrence_analysis, recurrence.py:34-89; default beta 1.5 and itstab 1E-5 of line 315. *)
Definition recurrence_analysis (fuel : nat) (year_col magnitude_col : list T)
    (completeness_table : list (T * T)) (magnitude_window : T) (algorithm : string)
    (reference_magnitude time_window : T) : res (T * T * T * T) :=
  if String.eqb algorithm "Weichert"%string then
    let* (cent_mag, t_per, n_obs) :=
      weichert_prep year_col magnitude_col completeness_table magnitude_window time_window in
    weichert fuel t_per cent_mag (map ofnat n_obs) reference_magnitude
             (lit 15 10) (lit 1 100000)
  else
    b_maxlike_time year_col magnitude_col
      (map fst completeness_table) (map snd completeness_table)
      magnitude_window reference_magnitude.

End Recurrence.
